(** The relaxation of Step, with the geometry of the code. *)
From Coq Require Import Reals ZArith List Bool Lra Lia.
From Verif Require Import Outcome Num Base Flt FltR FltRFacts State Spec Spec2
  ModelTypes ModelGeometry ModelBodySoil ModelBodyPos ModelUtils ModelStep ModelRaster ModelWhole
  SpecGeo GeoProofs PoseProofs TypesProofs InsideProofs GeoClaims StepProofs InitProofs RestProofs
  RestLater WholeProofs WholeClaims.
Import ListNotations.
Open Scope R_scope.

Section Wide.
  Variables (k : kind) (t : Z) (to_ticks : R -> Z) (g : rgrid) (cz : Z) (prm : gparam FltR) (b : rbody).
  Variables (P : params (ZNum (wunits t))) (r : R) (lines : nat) (ps : list (rvec * rquat)).
  Hypothesis M : mission k t g cz prm b P r lines ps.
  Notation W := (wgeom k t to_ticks g b P lines).
  Notation wg := (wgrid t g cz).
  Let rho := reach k g (metres t (p_tol P)) r.

  (** UpdateBody leaves two cells around the walls (body_pos.cpp:82-97 and the same for the blade). *)
  Lemma mission_wide : (4 <= cell_buffer prm)%Z -> wide W wg (wlegal g rho).
  Proof.
    intros B. destruct M as (H & Hr & Hl & _).
    pose proof (reach_nonneg k t g cz prm b P r rho lines H Hr (Rle_refl _) Hl) as R0.
    pose proof (setup_fits k t g cz prm b P r rho lines H (Rle_refl _) Hl) as Gf.
    pose proof (setup_tol t g cz prm b P H) as Tl.
    destruct (setup_cells k t g cz prm b P r rho lines H (Rle_refl _) Hl) as [C1 C2].
    assert (Eb : p_cell_buffer P = cell_buffer prm) by apply H.
    intros [[pos ori]|] a walls L Er w i j z i' j' Hw Hc Hi Hd Hd'; [|destruct L].
    assert (Gr : exists v n, good_raster g (p_cell_buffer P) rho pos v n
      (raster_of k g (metres t (p_tol P)) lines (p_cell_buffer P) b pos ori)).
    { pose proof (inside_ball _ rho pos ori R0 C1 C2 L) as I. destruct L as (Lo & _).
      assert (E : reach k g (metres t (p_tol P)) r <= rho) by apply Rle_refl.
      unfold raster_of. unfold reach in E.
      destruct k; eexists; eexists; [apply bucket_inside with (r := r)|apply blade_inside with (r := r)];
        auto; lia. }
    destruct Gr as (v & n & a' & walls' & E & _ & _ & _ & _ & _ & Q).
    unfold wgeom in Er. cbn [whole g_raster] in Er. unfold wraster in Er.
    assert (Ew : a' = a /\ walls' = walls) by (split; congruence). destruct Ew as [-> ->].
    destruct (Q w Hw) as (_ & Q'). destruct (Q' i j z Hc) as (_ & _ & _ & _ & _ & _ & Q2).
    unfold interior in Hi. cbn [wgrid half_x half_y] in Hi.
    apply Q2; lia.
  Qed.
End Wide.

Section First.
  Variables (k : kind) (t : Z) (to_ticks : R -> Z) (g : rgrid) (cz : Z) (prm : gparam FltR) (b : rbody).
  Variables (P : params (ZNum (wunits t))) (r : R) (lines : nat) (p : rvec * rquat).
  Hypothesis M : mission k t g cz prm b P r lines [p].
  Notation W := (wgeom k t to_ticks g b P lines).
  Notation wg := (wgrid t g cz).
  Let rho := reach k g (metres t (p_tol P)) r.

  Lemma mission_roomy : (4 <= cell_buffer prm)%Z -> roomy W wg (wlegal g rho).
  Proof.
    intros B q a walls L Er w i j z i' j' Hw Hc Hi Hd.
    apply (mission_wide k t to_ticks g cz prm b P r lines [p] M B q a walls L Er w i j z); auto; lia.
  Qed.

  Lemma mission_first_rests noise rg l fuel w' : (4 <= cell_buffer prm)%Z ->
    wrun k t to_ticks g cz b P lines fuel [p]
      (init (A := ZNum (wunits t)) wg noise (new_sim wg rg l)) = Ok w' ->
    equilibrium (fst w') = true ->
    forall i j, interior wg i j -> rests P (fst w') i j.
  Proof.
    intros B E Q. unfold wrun in E. cbn [map run] in E.
    apply bind_ok in E as ([w1 m] & E & E1). cbn [run] in E1. injection E1 as ->.
    assert (Em : m = true).
    { unfold step in E. unfold wgeom in E. cbn [whole g_moved wmoved] in E.
      cbn [snd fst] in E. revert E.
      repeat (let X := fresh in let x := fresh in intros X; apply bind_ok in X as (x & _ & X);
        try destruct x; revert X).
      intros X. congruence. }
    subst m. destruct M as (H & Hr & Hl & Hp).
    apply (step_rests W wg P (wnear g rho) (mission_params _ _ _ _ _ _ _ _ _ _ M)
      (wlegal g rho) fuel (Some p)
      (init (A := ZNum (wunits t)) wg noise (new_sim wg rg l), None) w' (mission_grid _ _ _ _ _ _ _ _ _ _ M)
      (mission_geom _ _ to_ticks _ _ _ _ _ _ _ _ M) (mission_roomy B)).
    - assert (Eb : p_cell_buffer P = cell_buffer prm) by apply H. lia.
    - apply (mission_start k t to_ticks g cz prm b P r lines [p] M noise rg l).
    - inversion Hp; subst. assumption.
    - intros i j Hi.
      destruct (init_spec (A := ZNum (wunits t)) wg noise (new_sim wg rg l))
        as (table & _ & (_ & _ & _ & _ & _ & _ & _ & Ra & _) & _).
      cbn [fst]. rewrite Ra. unfold interior in Hi. unfold in_area.
      cbn [relax_area new_sim x_lo x_hi y_lo y_hi wgrid half_x half_y] in *. lia.
    - exact E.
    - exact Q.
  Qed.
End First.

Section Run.
  Variables (k : kind) (t : Z) (to_ticks : R -> Z) (g : rgrid) (cz : Z) (prm : gparam FltR) (b : rbody).
  Variables (P : params (ZNum (wunits t))) (r : R) (lines : nat) (ps : list (rvec * rquat)).
  Hypothesis M : mission k t g cz prm b P r lines ps.
  Notation W := (wgeom k t to_ticks g b P lines).
  Notation wg := (wgrid t g cz).
  Let rho := reach k g (metres t (p_tol P)) r.

  Lemma mission_run_settles noise rg l fuel w' :
    (4 <= cell_buffer prm)%Z -> (1 <= max_iterations prm)%Z ->
    let s0 := init (A := ZNum (wunits t)) wg noise (new_sim wg rg l) in
    watched W wg P fuel (map Some ps) (s0, None) ->
    wrun k t to_ticks g cz b P lines fuel ps s0 = Ok w' -> kept s0 (fst w') ->
    equilibrium (fst w') = true ->
    forall i j, interior wg i j -> rests P (fst w') i j.
  Proof.
    intros B N s0 Wt E K. unfold wrun in E.
    pose proof M as (H & Hr & Hl & Hp).
    assert (Eb : p_cell_buffer P = cell_buffer prm) by apply H.
    assert (En : p_max_iterations P = Z.to_nat (max_iterations prm)) by apply H.
    destruct (init_spec (A := ZNum (wunits t)) wg noise (new_sim wg rg l))
      as (table & _ & (_ & _ & Eq & _ & _ & _ & _ & Ra & _) & _).
    apply (start_settles W wg P (wlegal g rho) (wnear g rho) (mission_grid _ _ _ _ _ _ _ _ _ _ M)
      (mission_params _ _ _ _ _ _ _ _ _ _ M) (mission_geom _ _ to_ticks _ _ _ _ _ _ _ _ M)
      ltac:(lia) fuel (map Some ps) (s0, None) w'
      (mission_wide k t to_ticks g cz prm b P r lines ps M B)).
    - rewrite En. lia.
    - apply (mission_start k t to_ticks g cz prm b P r lines ps M noise rg l).
    - clear - Hp. induction Hp; cbn [map]; constructor; auto.
    - intros i j Hi. subst s0.
      cbn [fst]. rewrite Ra. unfold interior in Hi. unfold in_area.
      cbn [relax_area new_sim x_lo x_hi y_lo y_hi wgrid half_x half_y] in *. lia.
    - subst s0. cbn [fst]. rewrite Eq. reflexivity.
    - exact Wt.
    - exact E.
    - exact K.
  Qed.
End Run.

(** There is no body in a new SimOut. *)
Lemma start_overlaps {upm} (G : geom (ZNum upm)) g noise rg l p :
  overlaps G g (init (A := ZNum upm) g noise (new_sim g rg l)) p.
Proof.
  intros a walls _ k i j i' j' _ _ Hbd. exfalso.
  destruct (init_spec (A := ZNum upm) g noise (new_sim g rg l)) as (table & _ & (_ & _ & _ & Bq & _) & _).
  unfold body_at in Hbd. rewrite !Bq in Hbd. destruct Hbd as [Q|Q]; apply Q; reflexivity.
Qed.
