(** Lemmas behind PropertiesWhole.v. *)
From Coq Require Import Reals ZArith List Bool Lra Lia Psatz.
From Verif Require Import Outcome Num Base Flt FltR FltRFacts State Spec Spec2
  ModelTypes ModelGeometry ModelBodySoil ModelBodyPos ModelUtils ModelStep ModelRaster ModelWhole
  SpecGeo GeoProofs PoseProofs TypesProofs LineProofs LineCells InnerProofs SurfaceProofs
  RasterProofs InsideProofs GeoClaims NoiseProofs StepProofs CheckProofs InitProofs RunProofs
  PropLemmas StructProofs WholeProofs.
Import ListNotations.
Open Scope R_scope.

(** The objects built by the constructors from the arguments of the caller, and the
    same numbers counted in ticks. *)
Definition setup (t : Z) (g : rgrid) (cz : Z) (prm : gparam FltR) (b : rbody)
  (P : params (ZNum (wunits t))) : Prop :=
  (0 < t)%Z /\
  (* Grid; its height is a whole number of cells *)
  (exists sx sy sz cxy cell n, rnew_grid sx sy sz cxy cell = Built g /\ sz = IZR n * cell) /\
  (* SimParam; its repose angle is not a right angle *)
  (exists angle iterations buffer, rnew_param angle iterations buffer = Built prm) /\
  repose_angle prm < PI / 2 /\
  (* Bucket or Blade; its three points are not on a line *)
  (exists o j l h w, rnew_body (list3 o) (list3 j) (list3 l) (list3 h) w = Built b) /\
  triangle (j_init b) (b_init b) (t_init b) /\
  (* the cell height and the height difference of RelaxTerrain, in ticks *)
  metres t cz = g_cell_z g /\ metres t (p_dh_max P) = rdh_max g prm /\
  p_max_iterations P = Z.to_nat (max_iterations prm) /\ p_cell_buffer P = cell_buffer prm /\
  (* the argument tol of Step *)
  (0 < (p_tol P : Z))%Z /\ (2 * (p_tol P : Z) < cz)%Z /\ metres t (p_tol P) <= / 3 /\
  (* the cells can be counted with an int *)
  (4 * ((2 * g_half_x g + 2) * (2 * g_half_y g + 2)) <= 2147483647)%Z /\
  (2 * g_half_z g <= 2147483646)%Z /\
  (2 * g_half_x g + 1 + cell_buffer prm <= 2147483647)%Z /\
  (2 * g_half_y g + 1 + cell_buffer prm <= 2147483647)%Z.

Lemma built_param : forall angle iterations buffer prm,
  rnew_param angle iterations buffer = Built prm ->
  0 <= repose_angle prm /\ (2 <= cell_buffer prm)%Z.
Proof.
  intros an it bu prm E.
  assert (Q : param_ok an it bu \/ ~ param_ok an it bu).
  { unfold param_ok. destruct (Rle_dec 0 an), (Rle_dec an (PI / 2)), (Z_le_dec 0 it), (Z_le_dec 2 bu);
      tauto. }
  destruct Q as [Q|Q]; [|destruct (new_param_throws _ _ _ Q); congruence].
  rewrite (new_param_ok _ _ _ Q) in E. injection E as <-. split; apply Q.
Qed.

(** Radius of a ball around the position of the body that contains its walls, when the
    corners are within [r] of it. *)
Definition reach (k : kind) (g : rgrid) (tol r : R) : R :=
  (1 + 18 * tol) * match k with Bucket => r | Blade => r + g_cell_xy g end.

Section Whole.
  Variables (k : kind) (t : Z) (to_ticks : R -> Z) (g : rgrid) (cz : Z) (prm : gparam FltR) (b : rbody).
  Variables (P : params (ZNum (wunits t))) (r rho : R) (lines : nat).
  Hypothesis H : setup t g cz prm b P.
  Hypothesis Hr : radius_le b r.
  Hypothesis Hrho : reach k g (metres t (p_tol P)) r <= rho.
  Hypothesis Hl : (grid_fuel g <= Z.of_nat lines)%Z.

  Notation W := (wgeom k t to_ticks g b P lines).
  Notation wg := (wgrid t g cz).

  Lemma setup_tol : 0 <= metres t (p_tol P) <= / 3.
  Proof.
    destruct H as (T & _ & _ & _ & _ & _ & _ & _ & _ & _ & P1 & _ & P3 & _). split; auto.
    unfold metres. apply IZR_lt in T. apply IZR_lt in P1.
    apply Rmult_le_pos; [apply Rlt_le, P1|apply Rlt_le, Rinv_0_lt_compat, T].
  Qed.

  Lemma setup_grid_ok : grid_ok wg.
  Proof.
    destruct H as (T & (sx & sy & sz & cxy & cell & n & E & A) & _ & _ & _ & _ & C & _).
    destruct (built_grid _ _ _ _ _ _ E) as (S & (F1 & F2 & F3) & ->).
    eapply whole_grid_ok; eauto.
  Qed.

  Lemma setup_cells : 0 < g_cell_xy g /\ 0 < g_cell_z g.
  Proof.
    destruct H as (T & (sx & sy & sz & cxy & cell & n & E & A) & _).
    destruct (built_grid _ _ _ _ _ _ E) as (S & _ & ->).
    destruct S as (S1 & S2 & _). cbn. split; lra.
  Qed.

  Lemma setup_fits : grid_fits g.
  Proof.
    destruct setup_cells as [C1 C2]. destruct setup_grid_ok as (G1 & G2 & _).
    cbn [wgrid half_x half_y] in G1, G2.
    destruct H as (T & (sx & sy & sz & cxy & cell & n & E & A) & _ & _ & _ & _ & _ & _ & _ & _ & _ & _
      & _ & I1 & I2 & _).
    destruct (built_grid _ _ _ _ _ _ E) as (S & (F1 & F2 & F3) & Eg).
    assert (1 <= g_half_z g)%Z by (rewrite Eg; apply built_halves; auto).
    unfold grid_fits. repeat split; auto; lia.
  Qed.

  Lemma setup_params_ok : params_ok wg P.
  Proof.
    destruct setup_cells as [C1 C2].
    destruct H as (T & (sx & sy & sz & cxy & cell & n & E & A) & (an & it & bu & Ep) & An & _ & _ & C & D
      & _ & B & P1 & P2 & _ & _ & _ & I3 & I4).
    destruct (built_param _ _ _ _ Ep) as (Q1 & Q2).
    destruct (dh_max_nonneg g prm C1 C2 (conj Q1 An)) as (m & M1 & M2 & _).
    rewrite M2, <- C in D. unfold metres in D. assert (T' := T). apply IZR_lt in T'.
    assert (Dh : (p_dh_max P : Z) = (cz * m)%Z).
    { apply eq_IZR. rewrite mult_IZR. apply (Rmult_eq_reg_r (/ IZR t)).
      - unfold Rdiv in D. etransitivity; [exact D|]. ring.
      - apply Rinv_neq_0_compat. lra. }
    pose proof setup_grid_ok as (_ & _ & Cz & _). cbn [wgrid cell_z] in Cz.
    unfold params_ok; cbn [wgrid cell_z half_x half_y].
    rewrite B.
    split; [exact P1|]. split; [exact P2|].
    split; [rewrite Dh; apply Z.mul_nonneg_nonneg; lia|].
    split; [rewrite Dh; exists m; apply Z.mul_comm|]. lia.
  Qed.

  Lemma reach_nonneg : 0 <= rho.
  Proof.
    eapply Rle_trans; [|exact Hrho]. unfold reach. pose proof setup_tol.
    pose proof (radius_nonneg b r Hr). destruct setup_cells as [C _].
    apply Rmult_le_pos; [lra|]. destruct k; lra.
  Qed.

  Lemma setup_geom_ok : geom_ok wg W (wlegal g rho) (wnear g rho).
  Proof.
    pose proof reach_nonneg as R0. pose proof setup_fits as Gf. pose proof setup_tol as Tl.
    destruct setup_cells as [C1 C2].
    assert (B : (2 <= p_cell_buffer P)%Z).
    { destruct H as (_ & _ & (an & it & bu & Ep) & _ & _ & _ & _ & _ & _ & B & _).
      rewrite B. apply (built_param _ _ _ _ Ep). }
    destruct H as (T & (sx & sy & sz & cxy & cell & n & E & A) & _ & _ & _ & _ & C & _).
    destruct (built_grid _ _ _ _ _ _ E) as (S & (F1 & F2 & F3) & Eg).
    unfold wgeom. revert Hrho Hl Gf C1 C2 C. rewrite Eg. intros Hrho' Hl' Gf C1 C2 C.
    eapply (whole_geom_ok sx sy sz cxy cell S F1 F2); eauto.
    intros pos ori L.
    pose proof (inside_ball _ rho pos ori R0 C1 C2 L) as I. destruct L as (Lo & _).
    unfold raster_of. unfold reach in Hrho'.
    destruct k; eexists; eexists; [apply bucket_inside with (r := r)|apply blade_inside with (r := r)]; auto.
  Qed.

  Notation ok := (state_ok wg W (wlegal g rho) (wnear g rho)).

  Lemma legal_poses : forall ps, Forall (pose_inside g rho) ps ->
    Forall (wlegal g rho) (map Some ps).
  Proof. intros ps L. induction L; constructor; auto. Qed.

End Whole.

(** What the caller must ensure: the objects are built as above, the corners of the
    body are within [r] of its position, and every pose keeps the body away from the
    border. *)
Definition mission (k : kind) (t : Z) (g : rgrid) (cz : Z) (prm : gparam FltR) (b : rbody)
  (P : params (ZNum (wunits t))) (r : R) (lines : nat) (ps : list (rvec * rquat)) : Prop :=
  setup t g cz prm b P /\ radius_le b r /\ (grid_fuel g <= Z.of_nat lines)%Z /\
  Forall (pose_inside g (reach k g (metres t (p_tol P)) r)) ps.

Section Claims.
  Variables (k : kind) (t : Z) (to_ticks : R -> Z) (g : rgrid) (cz : Z) (prm : gparam FltR) (b : rbody).
  Variables (P : params (ZNum (wunits t))) (r : R) (lines : nat) (ps : list (rvec * rquat)).
  Hypothesis M : mission k t g cz prm b P r lines ps.
  Variables (noise : list nat -> Z -> Z -> Z) (rg : rng_t) (l : list warning).
  Let rho := reach k g (metres t (p_tol P)) r.

  Notation W := (wgeom k t to_ticks g b P lines).
  Notation wg := (wgrid t g cz).
  Notation start := (init (A := ZNum (wunits t)) wg noise (new_sim wg rg l)).
  Notation ok := (state_ok wg W (wlegal g rho) (wnear g rho)).

  Lemma mission_grid : grid_ok wg.
  Proof.
    destruct M as (S & _ & L & _).
    exact (setup_grid_ok k t g cz prm b P r _ lines S (Rle_refl _) L).
  Qed.
  Lemma mission_start : ok (start, None).
  Proof. apply init_ok. exact mission_grid. Qed.
  Lemma mission_params : params_ok wg P.
  Proof.
    destruct M as (S & _ & L & _).
    exact (setup_params_ok k t g cz prm b P r _ lines S (Rle_refl _) L).
  Qed.
  Lemma mission_geom : geom_ok wg W (wlegal g rho) (wnear g rho).
  Proof.
    destruct M as (S & R & L & _). eapply setup_geom_ok; eauto. apply Rle_refl.
  Qed.
  Lemma mission_poses : Forall (wlegal g rho) (map Some ps).
  Proof. apply legal_poses. apply M. Qed.

  Lemma mission_defined : forall fuel u,
    wrun k t to_ticks g cz b P lines fuel ps start <> UB u.
  Proof.
    intros fuel. exact (run_defined wg W (wlegal g rho) (wnear g rho) P fuel (map Some ps) (start, None)
      mission_grid mission_params mission_geom mission_start mission_poses).
  Qed.
  Lemma mission_total :
    exists w', (exists n, forall fuel, (n <= fuel)%nat ->
      wrun k t to_ticks g cz b P lines fuel ps start = Ok w').
  Proof.
    destruct (run_total wg W (wlegal g rho) (wnear g rho) P mission_grid
      mission_params mission_geom (map Some ps) (start, None) mission_start mission_poses)
      as (w' & E & _). eauto.
  Qed.
  Variables (fuel : nat) (w' : sim (ZNum (wunits t)) * wpose).
  Hypothesis E : wrun k t to_ticks g cz b P lines fuel ps start = Ok w'.
  Lemma mission_end : ok w' /\ balanced start (fst w').
  Proof.
    exact (run_ok wg W (wlegal g rho) (wnear g rho) mission_grid mission_geom P fuel (map Some ps)
      (start, None) w' mission_params mission_start mission_poses E).
  Qed.
End Claims.

(** ** What the properties say of the end of the calls *)
Section Results.
  Variables (k : kind) (t : Z) (to_ticks : R -> Z) (g : rgrid) (cz : Z) (prm : gparam FltR) (b : rbody).
  Variables (P : params (ZNum (wunits t))) (r : R) (lines : nat) (ps : list (rvec * rquat)).
  Hypothesis M : mission k t g cz prm b P r lines ps.
  Variables (noise : list nat -> Z -> Z -> Z) (rg : rng_t) (l : list warning).
  Notation wg := (wgrid t g cz).
  Notation start := (init (A := ZNum (wunits t)) wg noise (new_sim wg rg l)).
  Variables (fuel : nat) (w' : sim (ZNum (wunits t)) * wpose).
  Hypothesis E : wrun k t to_ticks g cz b P lines fuel ps start = Ok w'.

  Lemma mission_balanced : exists new, wlog (fst w') = wlog start ++ new /\
    (total_soil (fst w') <= total_soil start)%Z /\
    (total_soil (fst w') = total_soil start <-> ~ In WRemoved new).
  Proof. apply balanced_iff. eapply mission_end; eauto. Qed.

  Lemma mission_volume : forall v s1,
    check_volume (A := ZNum (wunits t)) (p_tol P) cz v start = Ok (s1, true) ->
    (forall new, wlog (fst w') = wlog start ++ new -> ~ In WRemoved new) ->
    (abs_volume cz (fst w') <= 2147483647)%Z ->
    check_volume (A := ZNum (wunits t)) (p_tol P) cz v (fst w') = Ok (fst w', true).
  Proof.
    intros v s1 V L A.
    exact (run_check_volume wg (wgeom k t to_ticks g b P lines) (wlegal g _) (wnear g _) P
      (mission_grid _ _ _ _ _ _ _ _ _ _ M) (mission_params _ _ _ _ _ _ _ _ _ _ M)
      (mission_geom _ _ to_ticks _ _ _ _ _ _ _ _ M) (map Some ps) fuel (start, None) w' v s1
      (mission_start k t to_ticks g cz prm b P r lines ps M noise rg l)
      (mission_poses _ _ _ _ _ _ _ _ _ _ M) V E L A).
  Qed.

  Lemma mission_check : check_soil (A := ZNum (wunits t)) (p_tol P) (fst w') = Ok (fst w', true).
  Proof.
    exact (state_ok_check_soil wg (wgeom k t to_ticks g b P lines) (wlegal g _) (wnear g _) P
      (mission_grid _ _ _ _ _ _ _ _ _ _ M) (mission_params _ _ _ _ _ _ _ _ _ _ M) w'
      (proj1 (mission_end _ _ _ _ _ _ _ _ _ _ _ M _ _ _ _ _ E))).
  Qed.

  Lemma mission_records :
    (forall i j k, on_grid (fst w') i j -> layer k ->
       soil_height (fst w') k i j = recorded (records (fst w')) k i j /\
       (soil_on (fst w') k i j -> listed (records (fst w')) k i j)) /\
    (forall e, In e (records (fst w')) ->
       (0 <= (e_h e : Z))%Z /\ aligned cz (e_h e) /\ layer (e_ind e) /\
       inside (fst w') (e_i e) (e_j e)).
  Proof.
    destruct (mission_end _ _ _ _ _ _ _ _ _ _ _ M _ _ _ _ _ E) as (K & _).
    destruct w' as [s' old']. destruct K as (_ & C & _). exact (consistent_records wg s' _ C).
  Qed.

  Lemma mission_below : terrain_below (fst w') /\ soil_below (fst w').
  Proof.
    destruct (mission_end _ _ _ _ _ _ _ _ _ _ _ M _ _ _ _ _ E) as (K & _).
    destruct w' as [s' old']. destruct K as (_ & _ & K1 & K2 & _). auto.
  Qed.

  Lemma mission_rests : forall i j k, on_grid (fst w') i j -> layer k -> soil_on (fst w') k i j ->
    body_at (fst w') k i j /\ body_soil (fst w') k i j = body (fst w') (k + 1) i j /\
    ((body_soil (fst w') k i j : Z) <= body_soil (fst w') (k + 1) i j)%Z.
  Proof.
    exact (run_soil_rests wg (wgeom k t to_ticks g b P lines) (wlegal g _) (wnear g _) P fuel
      (map Some ps) (start, None) w' (mission_grid _ _ _ _ _ _ _ _ _ _ M)
      (mission_params _ _ _ _ _ _ _ _ _ _ M) (mission_geom _ _ to_ticks _ _ _ _ _ _ _ _ M)
      (mission_start k t to_ticks g cz prm b P r lines ps M noise rg l)
      (mission_poses _ _ _ _ _ _ _ _ _ _ M) E).
  Qed.
End Results.

(** ** Movement *)
Definition corners_still (g : rgrid) (b : rbody) (old new : rvec * rquat) : Prop :=
  forall x y, In (x, y) (corner_pairs (rcorner_pos (fst old) (snd old) b)
                                      (rcorner_pos (fst new) (snd new) b)) ->
    vdist x y < / 2 * Rmin (g_cell_xy g) (g_cell_z g).

Lemma wmoved_still : forall (g : rgrid) (b : rbody) old new,
  0 < Rmin (g_cell_xy g) (g_cell_z g) ->
  (corners_still g b old new <-> wmoved g b (Some old) (Some new) = (false, false)) /\
  (fst (wmoved g b (Some old) (Some new)) = false <-> corners_still g b old new).
Proof.
  intros g b [x q] [x' q'] Hm.
  destruct (movement_spec x' q' g (at_pose b (Some (x, q))) Hm) as (A & B & C).
  unfold wmoved. unfold corners_still. cbn [fst snd].
  assert (A' : fst (rmovement x' q' g (at_pose b (Some (x, q)))) = false <->
    forall u v, In (u, v) (corner_pairs (rcorner_pos x q b) (rcorner_pos x' q' b)) ->
    vdist u v < / 2 * Rmin (g_cell_xy g) (g_cell_z g)) by exact A.
  split; [|exact A'].
  rewrite <- A'. destruct (rmovement x' q' g (at_pose b (Some (x, q)))) as [m f]. cbn [fst snd] in *.
  split; [|intros Q; congruence].
  intros ->. rewrite C; auto.
Qed.

Lemma whole_still : forall k t to_ticks (g : rgrid) cz (b : rbody) P lines fuel s old new,
  0 < Rmin (g_cell_xy g) (g_cell_z g) ->
  (corners_still g b old new ->
   step (wgeom k t to_ticks g b P lines) (wgrid t g cz) P fuel (Some new) (s, Some old) =
     Ok ((s, Some old), false)) /\
  (forall w' m,
   step (wgeom k t to_ticks g b P lines) (wgrid t g cz) P fuel (Some new) (s, Some old) = Ok (w', m) ->
   (m = false <-> corners_still g b old new) /\
   snd w' = if m then Some new else Some old).
Proof.
  intros k t to_ticks g cz b P lines fuel s old new Hm.
  destruct (wmoved_still g b old new Hm) as (A & B). split.
  - intros H. apply step_still. apply A, H.
  - intros w' m E. apply step_result in E. destruct E as [E1 E2]. subst m. split; [exact B|exact E2].
Qed.

Lemma whole_drift : forall k t to_ticks (g : rgrid) cz (b : rbody) P lines fuel ps s old new,
  0 < Rmin (g_cell_xy g) (g_cell_z g) ->
  Forall (corners_still g b old) ps ->
  let G := wgeom k t to_ticks g b P lines in
  run G (wgrid t g cz) P fuel (map Some ps ++ [Some new]) (s, Some old) =
    bind (step G (wgrid t g cz) P fuel (Some new) (s, Some old)) (fun r => Ok (fst r)).
Proof.
  intros k t to_ticks g cz b P lines fuel ps s old new Hm H G.
  apply (run_accumulates G (wgrid t g cz) P fuel (map Some ps) (Some new) s (Some old)).
  intros q Hq. apply in_map_iff in Hq. destruct Hq as (p & <- & Hp).
  rewrite Forall_forall in H. apply (proj1 (wmoved_still g b old p Hm)), H, Hp.
Qed.

(** ** Heights in ticks *)
Lemma exact_ticks_even : forall t z m, (0 < t)%Z ->
  ((exact_ticks t z < 2 * m)%Z <-> z * IZR t < IZR (2 * m)) /\
  ((2 * m < exact_ticks t z)%Z <-> IZR (2 * m) < z * IZR t).
Proof.
  intros t z m Ht. unfold exact_ticks. set (x := z * IZR t / 2).
  destruct (base_Int_part x) as [L U]. set (n := Int_part x) in *.
  replace (z * IZR t) with (2 * x) by (unfold x; field). rewrite mult_IZR.
  assert (A : (n < m)%Z <-> x < IZR m).
  { split; intros Q.
    - assert (n + 1 <= m)%Z as Q' by lia. apply IZR_le in Q'. rewrite plus_IZR in Q'. lra.
    - apply lt_IZR. lra. }
  destruct (Rltb (IZR n) x) eqn:E.
  - apply Rltb_lt in E. split.
    + split; intros Q; [assert (n < m)%Z by lia; apply A in H; lra|].
      assert (n < m)%Z by (apply A; lra). lia.
    + split; intros Q.
      * assert (m <= n)%Z as Q' by lia. apply IZR_le in Q'. lra.
      * destruct (Z_lt_le_dec n m) as [B|B]; [apply A in B; lra|lia].
  - apply Rltb_ge in E. assert (x = IZR n) as Ex by lra. split.
    + split; intros Q; [assert (n < m)%Z by lia; apply A in H; lra|].
      assert (n < m)%Z by (apply A; lra). lia.
    + split; intros Q.
      * assert (m < n)%Z as Q' by lia. apply IZR_lt in Q'. lra.
      * assert (IZR m < IZR n) as Q' by lra. apply lt_IZR in Q'. lia.
Qed.

(** The comparisons of body_soil.cpp:139, 154, 165 and 180 give the same result on the
    height in ticks as on the height itself, the heights of the body, the cell height
    and the tolerance being multiples of four ticks. *)
Lemma exact_ticks_spec : forall t z a b d, (0 < t)%Z ->
  ((Z.abs (exact_ticks t z - 4 * a) < 4 * d)%Z <->
     Rabs (z - metres t (4 * a)) < metres t (4 * d)) /\
  ((Z.abs (exact_ticks t z - 4 * a) < Z.abs (exact_ticks t z - 4 * b))%Z <->
     Rabs (z - metres t (4 * a)) < Rabs (z - metres t (4 * b))).
Proof.
  intros t z a b d Ht. assert (T := Ht). apply IZR_lt in T.
  assert (M : forall m, metres t m = IZR m / IZR t) by reflexivity.
  assert (S : forall m, z - metres t m = (z * IZR t - IZR m) / IZR t)
    by (intros; unfold metres; field; lra).
  assert (B : forall u v, Rabs (u / IZR t) < v / IZR t <-> Rabs u < v).
  { intros u v. unfold Rdiv. rewrite Rabs_mult, (Rabs_pos_eq (/ IZR t))
      by (apply Rlt_le, Rinv_0_lt_compat, T).
    split; intros Q.
    - apply (Rmult_lt_reg_r (/ IZR t)); [apply Rinv_0_lt_compat, T|exact Q].
    - apply Rmult_lt_compat_r; [apply Rinv_0_lt_compat, T|exact Q]. }
  set (e := exact_ticks t z). set (y := z * IZR t) in *.
  assert (X : forall m, ((e < 2 * m)%Z <-> y < IZR (2 * m)) /\ ((2 * m < e)%Z <-> IZR (2 * m) < y))
    by (intros; apply exact_ticks_even; auto).
  split.
  - rewrite S, M, B.
    destruct (X (2 * a + 2 * d)%Z) as [X1 _]. destruct (X (2 * a - 2 * d)%Z) as [_ X2].
    replace (2 * (2 * a + 2 * d))%Z with (4 * a + 4 * d)%Z in X1 by ring.
    replace (2 * (2 * a - 2 * d))%Z with (4 * a - 4 * d)%Z in X2 by ring.
    rewrite plus_IZR in X1. rewrite minus_IZR in X2. split; intros Q.
    + assert (y < IZR (4 * a) + IZR (4 * d)) by (apply X1; lia).
      assert (IZR (4 * a) - IZR (4 * d) < y) by (apply X2; lia). apply Rabs_def1; lra.
    + apply Rabs_def2 in Q. assert (e < 4 * a + 4 * d)%Z by (apply X1; lra).
      assert (4 * a - 4 * d < e)%Z by (apply X2; lra). lia.
  - rewrite !S.
    assert (D : forall u v, Rabs (u / IZR t) < Rabs (v / IZR t) <-> Rabs u < Rabs v).
    { intros u v. rewrite <- (B u (Rabs v)). unfold Rdiv. rewrite (Rabs_mult v), (Rabs_pos_eq (/ IZR t))
        by (apply Rlt_le, Rinv_0_lt_compat, T). tauto. }
    rewrite D.
    destruct (X (a + b)%Z) as [X1 X2].
    replace (2 * (a + b))%Z with (2 * a + 2 * b)%Z in X1, X2 by ring.
    (* |y - p| < |y - q| when y is on the side of p of the middle of p and q *)
    assert (QZ : forall p q : Z, (Z.abs (e - p) < Z.abs (e - q))%Z <->
      (p < q /\ 2 * e < p + q \/ q < p /\ p + q < 2 * e)%Z) by (intros; lia).
    assert (QR : forall p q : R, Rabs (y - p) < Rabs (y - q) <->
      (p < q /\ 2 * y < p + q \/ q < p /\ p + q < 2 * y)).
    { intros p q. unfold Rabs. destruct (Rcase_abs (y - p)), (Rcase_abs (y - q)); split; intros;
        try lra; destruct (Rtotal_order p q) as [|[|]]; lra. }
    rewrite QZ, QR.
    assert (I : IZR (4 * a) + IZR (4 * b) = 2 * IZR (2 * a + 2 * b))
      by (rewrite plus_IZR, !mult_IZR; ring).
    rewrite I.
    assert (L1 : (2 * e < 4 * a + 4 * b)%Z <-> 2 * y < 2 * IZR (2 * a + 2 * b)).
    { split; intros Q; [assert (e < 2 * a + 2 * b)%Z as Q' by lia; apply X1 in Q'; lra|].
      assert (e < 2 * a + 2 * b)%Z by (apply X1; lra). lia. }
    assert (L2 : (4 * a + 4 * b < 2 * e)%Z <-> 2 * IZR (2 * a + 2 * b) < 2 * y).
    { split; intros Q; [assert (2 * a + 2 * b < e)%Z as Q' by lia; apply X2 in Q'; lra|].
      assert (2 * a + 2 * b < e)%Z by (apply X2; lra). lia. }
    rewrite L1, L2.
    assert (O : forall p q, (p < q)%Z <-> IZR p < IZR q)
      by (intros; split; [apply IZR_lt|apply lt_IZR]).
    rewrite (O (4 * a)%Z (4 * b)%Z), (O (4 * b)%Z (4 * a)%Z). tauto.
Qed.

(** ** A concrete use: cells of 10 cm, four million ticks in ten metres *)
Definition mission_t : Z := 400000.
Definition mission_cz : Z := 40000.
Definition mission_prm : gparam FltR := @mkGParam FltR (PI / 4) 3 4.
Definition mission_P : params (ZNum (wunits mission_t)) :=
  mkParams (ZNum (wunits mission_t)) 40000%Z 3 4%Z 4%Z.
Definition mission_b : rbody :=
  @mkGBody FltR (mkVec 0 0 0) (mkVec 0 0 (- / 2)) (mkVec (7 / 10) 0 (- / 2)) (/ 2) v0 qzero.
Definition mission_ps : list (rvec * rquat) :=
  [(demo_pos, demo_ori); (mkVec (/ 3) 0 0, demo_ori); (mkVec (/ 2) 0 0, mkQuat 1 0 0 0)].

Lemma demo_grid_built : rnew_grid 4 4 4 (/ 10) (/ 10) = Built demo_g.
Proof. exact (proj1 noise_example). Qed.

Lemma demo_setup : setup mission_t demo_g mission_cz mission_prm mission_b mission_P.
Proof.
  destruct demo_half as (X & Y & Z). destruct demo_cells as [Cx Cz].
  assert (B : param_ok (PI / 4) 3 4).
  { unfold param_ok. pose proof PI_RGT_0. repeat split; lra || lia. }
  unfold setup. rewrite X, Y, Z, Cz.
  split; [reflexivity|]. split.
  { exists 4, 4, 4, (/ 10), (/ 10), 40%Z. split; [exact demo_grid_built|lra]. }
  split; [exists (PI / 4), 3%Z, 4%Z; apply new_param_ok, B|].
  split; [cbn [mission_prm repose_angle]; pose proof PI_RGT_0; lra|].
  split.
  { exists v0, v0, (mkVec 0 0 (- / 2)), (mkVec (7 / 10) 0 (- / 2)), (/ 2).
    rewrite new_body_ok.
    - f_equal. unfold mission_b. f_equal; apply vec_eq; cbn; lra.
    - unfold body_args_ok, list3, v0; cbn [vx vy vz length].
      repeat split; try lra; intros Q; injection Q; lra. }
  split; [exact demo_triangle|].
  split; [unfold metres, mission_t, mission_cz; lra|].
  split.
  { unfold metres, mission_t, mission_P; cbn [p_dh_max]. unfold dh_max. rewrite Cx, Cz.
    cbn [mission_prm repose_angle]. rewrite tan_PI4. rred.
    replace (/ 10 * 1 / / 10) with (IZR 1) by field. rewrite zround_IZR. lra. }
  split; [reflexivity|]. split; [reflexivity|].
  cbn [mission_P p_tol mission_prm cell_buffer]. unfold mission_cz, metres, mission_t.
  repeat split; lia || lra.
Qed.

Lemma demo_mission : forall k,
  mission k mission_t demo_g mission_cz mission_prm mission_b mission_P 1 250 mission_ps.
Proof.
  intros k. split; [exact demo_setup|]. split; [exact demo_radius|].
  destruct demo_half as (X & Y & Z). destruct demo_cells as [Cx Cz].
  split; [unfold grid_fuel; rewrite X, Y, Z; cbn; lia|].
  assert (R : reach k demo_g (metres mission_t (p_tol mission_P)) 1 <= 6 / 5).
  { unfold reach. rewrite Cx. unfold metres, mission_t; cbn [mission_P p_tol]. destruct k; lra. }
  unfold mission_ps. repeat apply Forall_cons; [| | |apply Forall_nil];
    unfold pose_inside; rewrite X, Y, Z, Cx, Cz;
    cbn [demo_pos vx vy vz]; rewrite ?Rabs_R0, ?(Rabs_pos_eq (/ 4)), ?(Rabs_pos_eq (/ 3)),
    ?(Rabs_pos_eq (/ 2)) by lra;
    (split; [apply demo_ori_nz || (intros Q; apply (f_equal qw) in Q; cbn in Q; lra)|];
     repeat split; lra).
Qed.
