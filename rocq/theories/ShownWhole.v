(** The whole simulator: the body in the grid after any sequence of calls of Step (C53). *)
From Coq Require Import Reals ZArith List Bool Lra Lia.
From Verif Require Import Outcome Num Base Flt FltR FltRFacts State Spec Spec2
  ModelTypes ModelGeometry ModelBodySoil ModelBodyPos ModelUtils ModelStep ModelRaster ModelWhole
  SpecGeo GeoProofs PoseProofs TypesProofs LineProofs LineCells InnerProofs SurfaceProofs RasterProofs
  InsideProofs GeoClaims StepProofs InitProofs RunProofs PropLemmas StructProofs WholeProofs WholeClaims
  SpecHole HoleProofs HoleBody HoleDemo SpecShown ShownProofs.
Import ListNotations.
Open Scope R_scope.

Section Shown.
  Variables (k : kind) (t : Z) (to_ticks : R -> Z) (g : rgrid) (cz : Z) (prm : gparam FltR) (b : rbody).
  Variables (P : params (ZNum (wunits t))) (r : R) (lines : nat) (ps : list (rvec * rquat)).
  Hypothesis M : mission k t g cz prm b P r lines ps.
  Variables (noise : list nat -> Z -> Z -> Z) (rg : rng_t) (l : list warning).
  Let rho := reach k g (metres t (p_tol P)) r.
  Notation W := (wgeom k t to_ticks g b P lines).
  Notation wg := (wgrid t g cz).
  Notation start := (init (A := ZNum (wunits t)) wg noise (new_sim wg rg l)).
  Notation ok := (state_ok wg W (wlegal g rho) (wnear g rho)).

  (** The stored pose: the later ones are too close to it. *)
  Lemma stored_pose : 0 < Rmin (g_cell_xy g) (g_cell_z g) ->
    forall fuel qs s p0 w', run W wg P fuel (map Some qs) (s, Some p0) = Ok w' ->
    exists qs1 p qs2, p0 :: qs = qs1 ++ p :: qs2 /\ snd w' = Some p /\ Forall (corners_still g b p) qs2.
  Proof.
    intros Hm fuel. induction qs as [|q qs IH]; intros s p0 w' E; cbn [map run] in E.
    - injection E as <-. exists [], p0, []. split; [reflexivity|]. split; [reflexivity|constructor].
    - apply bind_ok in E as ([w1 m] & E1 & E).
      destruct (whole_still k t to_ticks g cz b P lines fuel s p0 q Hm) as [_ Q].
      destruct (Q w1 m E1) as [Q1 Q2]. destruct w1 as [s1 o1]. cbn [snd] in Q2.
      destruct m; rewrite Q2 in E; destruct (IH _ _ _ E) as (qs1 & p & qs2 & H1 & H2 & H3).
      + exists (p0 :: qs1), p, qs2. split; [cbn [app]; rewrite <- H1; reflexivity|]. auto.
      + destruct qs1 as [|x qs1]; cbn [app] in H1.
        * injection H1 as <- <-. exists [], p0, (q :: qs). split; [reflexivity|].
          split; [exact H2|]. constructor; [apply Q1; reflexivity|exact H3].
        * injection H1 as <- H1. exists (p0 :: q :: qs1), p, qs2. split; [cbn [app]; rewrite <- H1; reflexivity|].
          auto.
  Qed.

  Variables (fuel : nat) (w' : sim (ZNum (wunits t)) * wpose).
  Hypothesis E : wrun k t to_ticks g cz b P lines fuel ps start = Ok w'.

  Lemma mission_up_to_date : ps <> [] ->
    exists ps1 p ps2, ps = ps1 ++ p :: ps2 /\ snd w' = Some p /\ Forall (corners_still g b p) ps2 /\
      up_to_date wg W w'.
  Proof.
    intros Hn.
    pose proof (mission_grid _ _ _ _ _ _ _ _ _ _ M) as Hg.
    pose proof (mission_params _ _ _ _ _ _ _ _ _ _ M) as HP.
    pose proof (mission_geom _ _ to_ticks _ _ _ _ _ _ _ _ M) as HG.
    pose proof (mission_start k t to_ticks g cz prm b P r lines ps M noise rg l) as H0.
    pose proof (mission_poses _ _ _ _ _ _ _ _ _ _ M) as Hl.
    assert (Hm : 0 < Rmin (g_cell_xy g) (g_cell_z g)).
    { destruct M as (S & _ & L & _).
      destruct (setup_cells k t g cz prm b P r _ lines S (Rle_refl _) L) as [C1 C2].
      apply Rmin_pos; assumption. }
    revert E Hl Hn. clear M. destruct ps as [|q qs]; intros E' Hl Hn; [congruence|].
    unfold wrun in E'. cbn [map run] in E'. apply bind_ok in E' as ([w1 m] & E1 & E').
    pose proof (Forall_inv Hl) as L1. pose proof (Forall_inv_tail Hl) as L2.
    assert (Em : m = true).
    { apply step_result in E1. apply E1. }
    subst m.
    destruct (step_shows wg W _ _ P Hg HP HG fuel (Some q) _ w1 H0 L1 E1) as [Es U].
    assert (K : ok w1) by (eapply (step_ok wg W _ _ Hg HG P fuel (Some q)); eauto).
    destruct w1 as [s1 o1]. cbn [snd] in Es. subst o1.
    destruct (stored_pose Hm fuel qs s1 q w' E') as (qs1 & p & qs2 & Q1 & Q2 & Q3).
    exists qs1, p, qs2. split; [exact Q1|]. split; [exact Q2|]. split; [exact Q3|].
    exact (run_up_to_date wg W _ _ P Hg HP HG fuel (map Some qs) _ w' K L2 E' U).
  Qed.

  (** In every column of a wall the terrain is below the body. *)
  Lemma mission_stopped : ps <> [] -> forall pos ori a walls,
    snd w' = Some (pos, ori) ->
    raster_of k g (metres t (p_tol P)) lines (p_cell_buffer P) b pos ori = Ok (a, walls) ->
    forall w i j z, In w walls -> In (i, j, z) w -> stopped (fst w') i j.
  Proof.
    intros Hn pos ori a walls Es Er w i j z Hw Hz.
    destruct (mission_up_to_date Hn) as (ps1 & p & ps2 & Ep & Es' & _ & (a' & walls' & U1 & U2 & _ & U4)).
    rewrite Es in Es'. injection Es' as <-.
    assert (Er' : g_raster W (Some (pos, ori)) = Ok (a, walls)) by exact Er.
    assert (U : Ok (a, walls) = Ok (a', walls')).
    { etransitivity; [symmetry; exact Er'|]. etransitivity; [|exact U1].
      exact (f_equal (g_raster W) (eq_sym Es)). }
    injection U as <- <-.
    destruct (U4 w i j z z Hw Hz Hz) as (kk & K1 & K2 & _).
    exists kk. split; [exact K1|]. split; [exact K2|].
    destruct (mission_end _ _ _ _ _ _ _ _ _ _ _ M _ _ _ _ _ E) as (K & _).
    pose proof (mission_poses _ _ _ _ _ _ _ _ _ _ M) as Hl. fold rho in Hl, K.
    assert (L : wlegal g rho (Some (pos, ori))).
    { rewrite Forall_forall in Hl. apply Hl. apply in_map. rewrite Ep. apply in_elt. }
    destruct (mission_geom _ _ to_ticks _ _ _ _ _ _ _ _ M) as [HR _]. fold rho in HR.
    destruct (HR _ L) as (a2 & walls2 & R1 & (R2 & _ & R3) & _). rewrite Er' in R1. injection R1 as <- <-.
    destruct (R3 w i j z Hw Hz) as [I _].
    destruct w' as [s' o']. destruct K as ([N1 N2] & _ & TB & _). cbn [fst] in *.
    apply TB; auto. unfold on_grid. rewrite N1, N2. unfold in_area, within_grid in *. lia.
  Qed.
End Shown.

Section Columns.
  Variables (t : Z) (to_ticks : R -> Z) (g : rgrid) (cz : Z) (prm : gparam FltR) (b : rbody).
  Variables (P : params (ZNum (wunits t))) (r : R) (lines : nat) (ps : list (rvec * rquat)).
  Notation tol := (metres t (p_tol P)).
  Notation wg := (wgrid t g cz).
  Lemma mission_facts : forall k, mission k t g cz prm b P r lines ps ->
    0 < g_cell_xy g /\ 0 <= tol <= / 3 /\ radius_le b r /\ forall p, In p ps -> snd p <> qzero.
  Proof.
    intros k (S & R & L & F).
    split; [apply (setup_cells k t g cz prm b P r _ lines S (Rle_refl _) L)|].
    split; [eapply setup_tol; exact S|]. split; [exact R|].
    intros [x q] Hp. rewrite Forall_forall in F. apply (F _ Hp).
  Qed.

  Variables (noise : list nat -> Z -> Z -> Z) (rg : rng_t) (l : list warning).
  Notation start := (init (A := ZNum (wunits t)) wg noise (new_sim wg rg l)).
  Variables (fuel : nat) (w' : sim (ZNum (wunits t)) * wpose) (m : R) (pos : rvec) (ori : rquat).
  Hypothesis Es : snd w' = Some (pos, ori).
  Hypothesis Hm : m <= / 100.

  Lemma stored_in : forall k, mission k t g cz prm b P r lines ps ->
    wrun k t to_ticks g cz b P lines fuel ps start = Ok w' ->
    ps <> [] /\ In (pos, ori) ps /\ exists a walls,
      raster_of k g tol lines (p_cell_buffer P) b pos ori = Ok (a, walls).
  Proof.
    intros k M E.
    assert (Hn : ps <> []).
    { intros ->. unfold wrun in E. cbn [map run] in E. injection E as <-. discriminate. }
    split; [exact Hn|].
    destruct (mission_up_to_date k t to_ticks g cz prm b P r lines ps M noise rg l fuel w' E Hn)
      as (ps1 & p & ps2 & Ep & Es' & _ & (a' & walls' & U1 & _)).
    rewrite Es in Es'. injection Es' as <-.
    split; [rewrite Ep; apply in_elt|]. exists a', walls'. etransitivity; [|exact U1].
    exact (f_equal (g_raster (wgeom k t to_ticks g b P lines)) (eq_sym Es)).
  Qed.

  Lemma mission_bucket : mission Bucket t g cz prm b P r lines ps ->
    wrun Bucket t to_ticks g cz b P lines fuel ps start = Ok w' ->
    1 / 10000000000 + 40 * (tol * tol) * r / g_cell_xy g < m ->
    let c := nudge_corners (K := FltR) tol (rcorner_pos pos ori b) in
    (forall p, In p (corner_list c) -> fair g p) ->
    rectangle_shape g tol m (b_r c) (b_l c) (t_r c) -> rectangle_shape g tol m (b_r c) (b_l c) (j_r c) ->
    triangle_shape g tol m (j_r c) (b_r c) (t_r c) -> triangle_shape g tol m (j_l c) (b_l c) (t_l c) ->
    let held p := forall i j, well_in m i j (vx (ind g p)) (vy (ind g p)) -> stopped (fst w') i j in
    (forall u v, 0 <= u <= 1 -> 0 <= v <= 1 ->
       held (surface_point (b_r c) (b_l c) (t_r c) u v) /\ held (surface_point (b_r c) (b_l c) (j_r c) u v)) /\
    (forall u v, 0 <= u -> 0 <= v -> u + v <= 1 ->
       held (surface_point (j_r c) (b_r c) (t_r c) u v) /\ held (surface_point (j_l c) (b_l c) (t_l c) u v)).
  Proof.
    intros M E Hb c Hf S1 S2 S3 S4 held.
    destruct (stored_in Bucket M E) as (Hn & Hin & a & walls & Er).
    destruct (mission_facts Bucket M) as (C & T & R & Q). specialize (Q _ Hin). cbn [snd] in Q.
    pose proof (mission_stopped Bucket t to_ticks g cz prm b P r lines ps M noise rg l fuel w' E Hn pos ori a walls Es Er)
      as St.
    cbn [raster_of] in Er.
    destruct (bucket_full g tol lines (p_cell_buffer P) b pos ori r m a walls C T Q R Hb Hm Hf S1 S2 S3 S4 Er)
      as (w1 & w2 & w3 & w4 & Ew & F1 & F2 & F3 & F4).
    split.
    - intros u v U V. split; intros i j I.
      + destruct (F1 u v i j U V I) as [z Z]. apply (St w1 i j z); [rewrite Ew; cbn [In]; auto|exact Z].
      + destruct (F2 u v i j U V I) as [z Z]. apply (St w2 i j z); [rewrite Ew; cbn [In]; auto|exact Z].
    - intros u v U V UV. split; intros i j I.
      + destruct (F3 u v i j U V UV I) as [z Z]. apply (St w3 i j z); [rewrite Ew; cbn [In]; auto|exact Z].
      + destruct (F4 u v i j U V UV I) as [z Z]. apply (St w4 i j z); [rewrite Ew; cbn [In]; auto|exact Z].
  Qed.

  Lemma mission_blade : mission Blade t g cz prm b P r lines ps ->
    wrun Blade t to_ticks g cz b P lines fuel ps start = Ok w' ->
    1 / 10000000000 + 40 * (tol * tol) * (r + g_cell_xy g) / g_cell_xy g < m ->
    let f := nudge_corners (K := FltR) tol (rcorner_pos pos ori b) in
    let h := nudge_corners (K := FltR) tol (back_corners g (rcorner_pos pos ori b)) in
    (forall p, In p (corner_list f ++ corner_list h) -> fair g p) ->
    (forall c, c = f \/ c = h ->
       rectangle_shape g tol m (b_r c) (b_l c) (j_r c) /\ rectangle_shape g tol m (t_r c) (t_l c) (j_r c)) ->
    let held p := forall i j, well_in m i j (vx (ind g p)) (vy (ind g p)) -> stopped (fst w') i j in
    forall c, c = f \/ c = h -> forall u v, 0 <= u <= 1 -> 0 <= v <= 1 ->
      held (surface_point (b_r c) (b_l c) (j_r c) u v) /\ held (surface_point (t_r c) (t_l c) (j_r c) u v).
  Proof.
    intros M E Hb f h Hf S held.
    destruct (stored_in Blade M E) as (Hn & Hin & a & walls & Er).
    destruct (mission_facts Blade M) as (C & T & R & Q). specialize (Q _ Hin). cbn [snd] in Q.
    pose proof (mission_stopped Blade t to_ticks g cz prm b P r lines ps M noise rg l fuel w' E Hn pos ori a walls Es Er)
      as St.
    cbn [raster_of] in Er.
    destruct (blade_full g tol lines (p_cell_buffer P) b pos ori r m a walls C T Q R Hb Hm Hf S Er)
      as (w1 & w2 & w3 & w4 & Ew & F1 & F2 & F3 & F4).
    intros c Hc u v U V. destruct Hc as [-> | ->].
    - split; intros i j I.
      + destruct (F1 u v i j U V I) as [z Z]. apply (St w1 i j z); [rewrite Ew; cbn [In]; auto|exact Z].
      + destruct (F3 u v i j U V I) as [z Z]. apply (St w3 i j z); [rewrite Ew; cbn [In]; auto|exact Z].
    - split; intros i j I.
      + destruct (F2 u v i j U V I) as [z Z]. apply (St w2 i j z); [rewrite Ew; cbn [In]; auto|exact Z].
      + destruct (F4 u v i j U V I) as [z Z]. apply (St w4 i j z); [rewrite Ew; cbn [In]; auto|exact Z].
  Qed.
End Columns.

(** ** A concrete use: the second pose is the one of HoleDemo.v *)
Definition hole_ps : list (rvec * rquat) := [(mkVec (/ 2) 0 0, mkQuat 1 0 0 0); (hole_pos, hole_ori)].
Lemma hole_mission : forall k,
  mission k mission_t demo_g mission_cz mission_prm mission_b mission_P 1 250 hole_ps.
Proof.
  intros k. destruct (demo_mission k) as (S & R & L & F). split; [exact S|]. split; [exact R|]. split; [exact L|].
  constructor; [rewrite Forall_forall in F; apply F; cbn [mission_ps In]; auto|]. constructor; [|constructor].
  destruct demo_half as (X & Y & Z). destruct demo_cells as [Cx Cz].
  assert (Q : reach k demo_g (metres mission_t (p_tol mission_P)) 1 <= 6 / 5).
  { unfold reach. rewrite Cx. unfold metres, mission_t; cbn [mission_P p_tol]. destruct k; lra. }
  unfold pose_inside; rewrite X, Y, Z, Cx, Cz; cbn [hole_pos vx vy vz].
  rewrite ?(Rabs_pos_eq (/ 30)) by lra. split; [exact hole_ori_nz|]. repeat split; lra.
Qed.
Lemma hole_tol : metres mission_t (p_tol mission_P) = demo_tol.
Proof. unfold metres, mission_t, demo_tol; cbn [mission_P p_tol]. lra. Qed.

Lemma same_frame : forall pos, j_r (rcorner_pos pos hole_ori mission_b) = vadd pos (mkVec 0 (- / 4) 0).
Proof.
  intros pos. change (rcorner_pos pos hole_ori mission_b) with (rcorner_pos pos hole_ori demo_b).
  rewrite corners_placed by exact hole_ori_nz. unfold map_corners, own_corners. rewrite demo_normal.
  cbn [j_r]. rewrite !place_eq, !rot_one.
  destruct pos as [x y z]. apply vec_eq; unfold vadd, vsub, vscale, demo_b;
    cbn [vx vy vz j_init b_init t_init width]; lra.
Qed.
Lemma hole_far : ~ corners_still demo_g mission_b (mkVec (/ 2) 0 0, mkQuat 1 0 0 0) (hole_pos, hole_ori).
Proof.
  intros H. unfold corners_still in H. cbn [fst snd] in H.
  specialize (H (j_r (rcorner_pos (mkVec (/ 2) 0 0) hole_ori mission_b)) (j_r (rcorner_pos hole_pos hole_ori mission_b))).
  destruct demo_cells as [Cx Cz]. rewrite Cx, Cz in H. rewrite Rmin_left in H by lra.
  rewrite !same_frame in H.
  specialize (H ltac:(unfold corner_pairs, corner_list; cbn [combine In]; left; rewrite <- !same_frame; reflexivity)).
  unfold vdist, vlen in H.
  assert (Q : sqrt (/ 20 * / 20) <= / 2 * / 10) by (rewrite sqrt_square by lra; lra).
  assert (L : sqrt (/ 20 * / 20) < sqrt (dot (vsub (vadd (mkVec (/ 2) 0 0) (mkVec 0 (- / 4) 0)) (vadd hole_pos (mkVec 0 (- / 4) 0)))
     (vsub (vadd (mkVec (/ 2) 0 0) (mkVec 0 (- / 4) 0)) (vadd hole_pos (mkVec 0 (- / 4) 0))))).
  { apply sqrt_lt_1_alt. unfold dot, vsub, vadd, hole_pos; cbn [vx vy vz]. lra. }
  assert (Q' : sqrt (/ 20 * / 20) = / 20) by (apply sqrt_square; lra). lra.
Qed.

(** The two calls return, and the second pose is stored. *)
Lemma hole_run : forall k to_ticks noise rg l,
  exists fuel w', wrun k mission_t to_ticks demo_g mission_cz mission_b mission_P 250 fuel hole_ps
    (init (A := ZNum (wunits mission_t)) (wgrid mission_t demo_g mission_cz) noise
       (new_sim (wgrid mission_t demo_g mission_cz) rg l)) = Ok w' /\ snd w' = Some (hole_pos, hole_ori).
Proof.
  intros k to_ticks noise rg l.
  destruct (mission_total k mission_t to_ticks demo_g mission_cz mission_prm mission_b mission_P 1 250 hole_ps
    (hole_mission k) noise rg l) as (w' & n & E).
  exists n, w'. specialize (E n (Nat.le_refl n)). split; [exact E|].
  destruct (mission_up_to_date k mission_t to_ticks demo_g mission_cz mission_prm mission_b mission_P 1 250 hole_ps
    (hole_mission k) noise rg l n w' E ltac:(discriminate)) as (ps1 & p & ps2 & Ep & Es & F & _).
  rewrite Es. f_equal. unfold hole_ps in Ep.
  destruct ps1 as [|q [|q' ps1]]; cbn [app] in Ep.
  - injection Ep as <- <-. exfalso. apply hole_far. exact (Forall_inv F).
  - injection Ep as _ <- _. reflexivity.
  - injection Ep as _ _ Ep. destruct ps1; discriminate.
Qed.

(** In the middle of the base of the bucket. *)
Lemma hole_stopped : forall to_ticks noise rg l,
  exists fuel w', wrun Bucket mission_t to_ticks demo_g mission_cz mission_b mission_P 250 fuel hole_ps
    (init (A := ZNum (wunits mission_t)) (wgrid mission_t demo_g mission_cz) noise
       (new_sim (wgrid mission_t demo_g mission_cz) rg l)) = Ok w' /\ stopped (fst w') 44 40.
Proof.
  intros to_ticks noise rg l. destruct (hole_run Bucket to_ticks noise rg l) as (fuel & w' & E & Es).
  exists fuel, w'. split; [exact E|].
  destruct bucket_demo as (_ & _ & _ & _ & (B1 & B2) & Hd). cbv zeta in Hd.
  rewrite hole_moved_eq in Hd. destruct Hd as (D1 & D2 & D3 & D4 & D5 & _).
  pose proof (mission_bucket mission_t to_ticks demo_g mission_cz mission_prm mission_b mission_P 1 250 hole_ps
    noise rg l fuel w' hole_m hole_pos hole_ori Es B2 (hole_mission Bucket) E) as Q.
  cbv zeta in Q. rewrite hole_tol in Q. specialize (Q B1).
  change (rcorner_pos hole_pos hole_ori mission_b) with (rcorner_pos hole_pos hole_ori demo_b) in Q.
  rewrite hole_moved_eq in Q. specialize (Q D1 D2 D3 D4 D5). destruct Q as [Q _].
  specialize (Q (13 / 30) (11 / 21) ltac:(lra) ltac:(lra)). destruct Q as [Q _]. apply Q.
  rewrite hole_ind. unfold surface_point, well_in, vadd, vsub, vscale, hole_moved, hole_m.
  cbn [j_r j_l b_r b_l t_r t_l vx vy vz]. split; apply Rabs_le; lra.
Qed.
