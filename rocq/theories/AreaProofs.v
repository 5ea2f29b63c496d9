(** The areas stay inside the margin of the grid; the orders are permutations. *)
From Coq Require Import ZArith List Bool Lia Permutation.
From Verif Require Import Outcome Num State Base Spec ModelRelax ModelIntersect
  ModelBodySoil ModelBodyPos ModelUtils ModelStep StructProofs.
Import ListNotations.
Open Scope Z_scope.

(** ** Fisher-Yates *)

Lemma list_set_app_r {X} (l1 l2 : list X) n x :
  list_set (l1 ++ l2) (length l1 + n) x = l1 ++ list_set l2 n x.
Proof. induction l1 as [|y l1 IH]; cbn; [auto|]. rewrite IH. reflexivity. Qed.

Lemma list_set_at {X} (l1 l2 : list X) y x :
  list_set (l1 ++ y :: l2) (length l1) x = l1 ++ x :: l2.
Proof.
  rewrite <- (Nat.add_0_r (length l1)), list_set_app_r. reflexivity.
Qed.

Lemma nth_error_at {X} (l1 l2 : list X) y : nth_error (l1 ++ y :: l2) (length l1) = Some y.
Proof. rewrite nth_error_app2 by lia. rewrite Nat.sub_diag. reflexivity. Qed.

(** Swapping the last element of a prefix with another one of the prefix. *)
Lemma swap_same {X} (p : list X) x suf :
  swap (p ++ x :: suf) (length p) (length p) = p ++ x :: suf.
Proof. unfold swap. rewrite nth_error_at, !list_set_at. reflexivity. Qed.

Lemma swap_two {X} (p1 p2 : list X) x z suf :
  swap (p1 ++ x :: p2 ++ z :: suf) (length p1 + S (length p2)) (length p1) =
  p1 ++ z :: p2 ++ x :: suf.
Proof.
  assert (E : p1 ++ x :: p2 ++ z :: suf = (p1 ++ x :: p2) ++ z :: suf)
    by (rewrite <- app_assoc; reflexivity).
  assert (L : (length p1 + S (length p2))%nat = length (p1 ++ x :: p2))
    by (rewrite app_length; reflexivity).
  unfold swap. rewrite nth_error_at, E, L, nth_error_at, list_set_at, <- app_assoc.
  cbn [app]. rewrite list_set_at. reflexivity.
Qed.

Lemma shuffle_from_onto {X} aa : forall (pre pre' suf : list X),
  length pre = S aa -> Permutation pre' pre ->
  exists r, fst (shuffle_from aa (pre ++ suf) r) = pre' ++ suf.
Proof.
  induction aa as [|aa IH]; intros pre pre' suf Hl Hp.
  - exists (fun _ _ => O). cbn [shuffle_from fst]. f_equal.
    destruct pre as [|x [|y pre]]; cbn in Hl; try lia.
    apply Permutation_sym, Permutation_length_1_inv in Hp. auto.
  - assert (Hl' : length pre' = S (S aa)) by (rewrite (Permutation_length Hp); auto).
    destruct (exists_last (l := pre')) as (q & x & Eq); [intros ->; cbn in Hl'; lia|].
    assert (Hx : In x pre).
    { eapply Permutation_in; [exact Hp|]. rewrite Eq. apply in_app_iff. right; left; auto. }
    apply in_split in Hx as (p1 & p2 & E1).
    assert (Hq : Permutation q (p1 ++ p2)).
    { rewrite <- (app_nil_r q). apply Permutation_app_inv with (a := x).
      rewrite <- Eq, <- E1. auto. }
    assert (Next : forall pre1, length pre1 = S aa -> Permutation q pre1 ->
      swap (pre ++ suf) (S aa) (length p1) = pre1 ++ x :: suf ->
      exists r, fst (shuffle_from (S aa) (pre ++ suf) r) = pre' ++ suf).
    { intros pre1 L1 Q1 S1. destruct (IH pre1 q (x :: suf) L1 Q1) as (r & Hr).
      exists (fun n a => match n with O => length p1 | S n' => r n' a end).
      cbn [shuffle_from draw].
      rewrite Nat.mod_small.
      - rewrite S1. transitivity (q ++ x :: suf); [exact Hr|].
        rewrite Eq, <- app_assoc. reflexivity.
      - rewrite E1, app_length in Hl. cbn in Hl. lia. }
    assert (D : p2 = [] \/ p2 <> []) by (destruct p2; [left|right]; congruence).
    destruct D as [->|Hn].
    + apply (Next p1); auto.
      * rewrite E1, app_length in Hl. cbn in Hl. lia.
      * rewrite app_nil_r in Hq. auto.
      * rewrite E1, <- app_assoc. cbn [app].
        replace (S aa) with (length p1) by (rewrite E1, app_length in Hl; cbn in Hl; lia).
        apply swap_same.
    + destruct (exists_last Hn) as (p3 & z & E2).
      apply (Next (p1 ++ z :: p3)).
      * rewrite E1, E2, !app_length in Hl. cbn in Hl. rewrite app_length in Hl. cbn in Hl.
        rewrite app_length. cbn. lia.
      * rewrite Hq, E2. apply Permutation_app_head. symmetry. apply Permutation_cons_append.
      * rewrite E1, E2. rewrite <- !app_assoc. cbn [app]. rewrite <- !app_assoc. cbn [app].
        replace (S aa) with (length p1 + S (length p3))%nat.
        -- apply swap_two.
        -- rewrite E1, E2, !app_length in Hl. cbn in Hl. rewrite app_length in Hl. cbn in Hl. lia.
Qed.

Theorem shuffle_onto {X} (l l' : list X) :
  Permutation l' l -> exists r, fst (shuffle l r) = l'.
Proof.
  intros Hp. destruct l as [|x l].
  - apply Permutation_sym, Permutation_nil in Hp. subst. exists (fun _ _ => O). reflexivity.
  - destruct (shuffle_from_onto (length l) (x :: l) l' []) as (r & Hr); auto.
    exists r. unfold shuffle. cbn [length]. rewrite Nat.sub_succ, Nat.sub_0_r.
    rewrite !app_nil_r in Hr. exact Hr.
Qed.

(** ** Areas, for every arithmetic *)

Section Areas.
  Context {A : Num}.
  Local Notation sim := (sim A).
  Variable G : geom A.
  Variable g : grid_t A.
  Variable P : params A.

  (** The area is inside the margin: its cells have four neighbours. *)
  Definition in_margin (a : area) : Prop :=
    1 <= x_lo a /\ x_hi a <= 2 * half_x g /\ 1 <= y_lo a /\ y_hi a <= 2 * half_y g.

  Definition areas_ok (s : sim) : Prop :=
    in_margin (body_area s) /\ in_margin (relax_area s) /\ in_margin (impact_area s).

  Definition same_areas (s s' : sim) : Prop :=
    body_area s' = body_area s /\ relax_area s' = relax_area s /\
    impact_area s' = impact_area s.

  Lemma same_areas_refl s : same_areas s s.
  Proof. repeat split. Qed.
  Lemma same_areas_trans s1 s2 s3 : same_areas s1 s2 -> same_areas s2 s3 -> same_areas s1 s3.
  Proof. unfold same_areas. intuition congruence. Qed.

  Lemma areas_ok_same s s' : same_areas s s' -> areas_ok s -> areas_ok s'.
  Proof. intros (E1 & E2 & E3). unfold areas_ok. rewrite E1, E2, E3. auto. Qed.

  Ltac sa := repeat split.
  Ltac cases :=
    repeat match goal with
    | |- context [if ?b then _ else _] =>
        lazymatch b with context [if _ then _ else _] => fail | _ => destruct b end
    end.

  Lemma for_each_areas {X} (l : list X) (f : X -> sim -> outcome sim) s0 s :
    (forall x s, partial (f x s) (same_areas s)) -> same_areas s0 s ->
    partial (for_each l f s) (same_areas s0).
  Proof.
    intros H H0. apply for_each_partial; [|auto]. intros x s1 _ H1.
    eapply partial_weaken; [apply H|]. cbv beta. intros s2 H2. eapply same_areas_trans; eauto.
  Qed.

  Lemma partial_guard_areas b s (m : outcome sim) :
    partial m (same_areas s) -> partial (guard b m) (same_areas s).
  Proof. destruct b; cbn; auto. Qed.

  Lemma include_areas tol s i j lo hi :
    partial (include_new_body_pos tol s i j lo hi) (same_areas s).
  Proof.
    unfold include_new_body_pos. apply partial_guard_areas.
    destruct (layer_status _ _ _ _ _ _ _); [|sa].
    destruct (layer_status _ _ _ _ _ _ _); [|sa].
    cbn [partial]. repeat match goal with |- context [if ?b then _ else _] => destruct b end; sa.
  Qed.

  Lemma update_body_loop_areas tol l : forall s i j lo hi,
    partial (update_body_loop g tol l s i j lo hi) (same_areas s).
  Proof.
    induction l as [|[[i' j'] k] l IH]; intros s i j lo hi; cbn [update_body_loop].
    - apply include_areas.
    - destruct (_ || _).
      + eapply partial_bind; [apply include_areas|]. cbv beta. intros s1 H1.
        apply partial_guard_areas. eapply partial_weaken; [apply IH|]. cbv beta.
        intros s2 H2. eapply same_areas_trans; eauto.
      + apply partial_guard_areas. apply IH.
  Qed.

  Lemma calc_body_pos_areas tol a walls s :
    partial (calc_body_pos g tol a walls s)
      (fun s' => body_area s' = a /\ relax_area s' = relax_area s /\
                 impact_area s' = impact_area s).
  Proof.
    unfold calc_body_pos, clear_body.
    eapply partial_bind.
    - apply (for_each_areas _ _ s s); [|apply same_areas_refl].
      intros [i j] s1. apply partial_guard_areas. sa.
    - cbv beta. intros s1 (_ & E2 & E3).
      eapply partial_weaken.
      + apply (for_each_areas _ _ (set_body_area s1 a)); [|apply same_areas_refl].
        intros w s2. unfold update_body. destruct (sort3 w) as [|[[i j] k] l]; [exact I|].
        apply partial_guard_areas. apply update_body_loop_areas.
      + cbv beta. intros s2 (F1 & F2 & F3). cbn in F1, F2, F3. split; [auto|].
        split; congruence.
  Qed.

  Lemma update_body_soil_areas tol rl s :
    partial (update_body_soil g tol rl s) (same_areas s).
  Proof.
    unfold update_body_soil. eapply partial_bind.
    - apply (for_each_areas _ _ s s); [|apply same_areas_refl].
      intros e s1. apply partial_guard_areas. sa.
    - cbv beta. intros s1 H1. apply for_each_areas; [|].
      + intros e s2. unfold update_record. destruct (f_below _ _); [sa|].
        eapply partial_bind with (P := fun _ => True).
        { destruct (rl (e_pos e)); exact I. }
        intros r _. eapply partial_bind with (P := fun _ => True).
        { destruct (find_wall _ _ _ _ _ _); exact I. }
        intros [hit best] _. destruct hit as [[[i j] k]|]; [sa|].
        destruct (negb _).
        * destruct (fst best) as [[[i j] k]|]; [sa|exact I].
        * apply partial_guard_areas. sa.
      + eapply same_areas_trans; [exact H1|]. sa.
  Qed.

  Local Notation keeps s := (fun p => same_areas s (fst p)).

  Lemma move_body_soil_areas frame tol (s : sim) w max_h i j :
    partial (move_body_soil frame tol s w max_h i j) (keeps s).
  Proof.
    unfold move_body_soil. apply partial_guard. intros _.
    unfold move_single, move_between. cbv zeta.
    destruct (body s 0 i j <. body s 2 i j)%num.
    all: repeat match goal with
         | |- context [if ?b then _ else _] => destruct b
         | |- context [match ?b with Some _ => _ | None => _ end] => destruct b
         end; cbn [partial fst]; sa.
  Qed.

  Lemma explore_areas frame tol fuel : forall (s : sim) w max_h i j d pp,
    partial (explore frame tol fuel s w max_h i j d pp) (keeps s).
  Proof.
    induction fuel as [|fuel IH]; intros; cbn [explore];
      destruct (_ && _); cbn [partial fst]; try sa.
    eapply partial_bind; [apply move_body_soil_areas|].
    intros [s1 w1] H1. cbn [fst] in H1. apply partial_guard. intros _.
    eapply partial_weaken; [apply IH|]. cbv beta. intros [s2 w2] H2. cbn [fst] in *.
    eapply same_areas_trans; eauto.
  Qed.

  Lemma explore_all_areas frame tol fuel dirs : forall (s : sim) ind ind_t i j h,
    partial (explore_all frame tol fuel dirs s ind ind_t i j h) (keeps s).
  Proof.
    induction dirs as [|d dirs IH]; intros; cbn [explore_all]; [cbn [partial fst]; sa|].
    eapply partial_bind; [apply explore_areas|].
    intros [s1 w1] H1. cbn [fst] in H1. destruct (fltb _ _); [exact H1|].
    eapply partial_weaken; [apply IH|]. cbv beta. intros [s2 w2] H2. cbn [fst] in *.
    eapply same_areas_trans; eauto.
  Qed.

  Lemma move_record_areas frame tol fuel nn e (s : sim) dirs :
    partial (move_record frame tol fuel nn e s dirs) (keeps s).
  Proof.
    unfold move_record. cbv zeta. apply partial_guard. intros _.
    destruct (body_absent _ _ _ _); [cbn [partial fst]; sa|].
    destruct (_ && _); [|cbn [partial fst]; sa].
    destruct (fltb (e_h e) _);
      (destruct (shuffle dirs _) as [dirs' r] eqn:Es;
       eapply partial_bind; [apply explore_all_areas|];
       intros [s1 h1] H1; cbn [fst] in H1;
       assert (H2 : same_areas s s1)
         by (eapply same_areas_trans; [|exact H1]; sa);
       destruct (fltb tol h1); cbn [partial fst]; exact H2).
  Qed.

  Lemma move_records_areas frame tol fuel wf : forall nn (s : sim) dirs,
    partial (move_records frame tol fuel wf nn s dirs) (same_areas s).
  Proof.
    induction fuel as [|fuel IH]; intros; cbn [move_records];
      (destruct (nth_error _ _); [|cbn [partial]; sa]); [exact I|].
    eapply partial_bind; [apply move_record_areas|].
    intros [s1 d1] H1. cbn [fst] in H1.
    eapply partial_weaken; [apply IH|]. cbv beta. intros s2 H2.
    eapply same_areas_trans; eauto.
  Qed.

  Lemma spread_ring_areas tol dirs : forall (s : sim) i j pp h,
    partial (spread_ring tol dirs s i j pp h) (keeps s).
  Proof.
    induction dirs as [|d dirs IH]; intros; cbn [spread_ring]; [cbn [partial fst]; sa|].
    apply partial_guard. intros _. cbv zeta.
    destruct (_ && _); [cbn [partial fst]; sa|].
    destruct (fltb (fadd _ tol) _); [|apply IH].
    destruct (fltb _ h); [|cbn [partial fst]; sa].
    eapply partial_weaken; [apply IH|]. cbv beta. intros [s2 h2] H2. cbn [fst] in *.
    eapply same_areas_trans; [|exact H2]. sa.
  Qed.

  Lemma spread_areas tol fuel : forall dirs (s : sim) i j pp h,
    partial (spread tol fuel dirs s i j pp h) (same_areas s).
  Proof.
    induction fuel as [|fuel IH]; intros; cbn [spread];
      (destruct (fltb tol h); [|cbn [partial]; sa]); [exact I|].
    eapply partial_bind; [apply spread_ring_areas|].
    intros [s1 h1] H1. cbn [fst] in H1.
    eapply partial_weaken; [apply IH|]. cbv beta. intros s2 H2.
    eapply same_areas_trans; eauto.
  Qed.

  Lemma move_intersecting_cells_areas frame tol fuel (s : sim) :
    partial (move_intersecting_cells frame tol fuel s) (same_areas s).
  Proof.
    unfold move_intersecting_cells, move_intersecting_body_soil.
    eapply partial_bind; [apply move_records_areas|]. intros s1 H1.
    unfold move_intersecting_body.
    eapply partial_bind with (P := fun _ => True);
      [destruct (locate_intersecting_cells _ _); cbn; auto|]. intros cells _.
    eapply partial_bind with (P := keeps s).
    - apply for_each_partial; [|exact H1].
      intros [[ind i] j] [s2 dirs] _ H2. cbn [fst] in H2. unfold move_terrain_cell.
      destruct (fltb _ _); [exact H2|].
      destruct (shuffle dirs _) as [dirs' r].
      eapply partial_bind; [apply spread_areas|]. intros s3 H3. cbn [partial fst].
      eapply same_areas_trans; [exact H2|]. eapply same_areas_trans; [|exact H3]. sa.
    - intros [s2 d2] H2. exact H2.
  Qed.

  (** ** Relaxation *)
  Lemma relax_unstable_terrain_cell_areas frame dh tol (s : sim) st i j ic jc :
    partial (relax_unstable_terrain_cell frame g dh tol s st i j ic jc) (same_areas s).
  Proof.
    unfold relax_unstable_terrain_cell, terrain_onto_body_soil, terrain_onto_body. cbv zeta.
    repeat (cases; cbn [bind partial]); try exact I; sa.
  Qed.

  Lemma relax_terrain_areas frame dh tol buf (s : sim) :
    areas_ok s -> partial (relax_terrain frame g dh buf tol s) areas_ok.
  Proof.
    intros Ok0. unfold relax_terrain.
    eapply partial_bind with (P := fun _ => True).
    { destruct (locate_unstable_terrain_cell _ _ _); exact I. }
    intros cells _. destruct cells as [|c cells]; [exact Ok0|].
    destruct (shuffle (c :: cells) _) as [cells' r].
    eapply partial_bind with (P := fun st => same_areas s (fst (fst st))).
    - apply for_each_partial; [|sa].
      intros [i j] [[s1 box] dirs] _ H1. cbn [fst] in H1.
      unfold relax_terrain_cell. destruct (shuffle dirs (rng s1)) as [dirs' r'].
      eapply partial_bind with (P := same_areas s); [|intros s2 H2; exact H2].
      apply for_each_areas; [|eapply same_areas_trans; [exact H1|]; sa].
      intros d s2. unfold relax_terrain_dir. cbv zeta. apply partial_guard_areas.
      destruct (_ =? 0); [sa|]. eapply partial_weaken; [apply relax_unstable_terrain_cell_areas|].
      cbv beta. intros s3 H3. eapply same_areas_trans; [|exact H3]. sa.
    - intros [[s1 box] dirs] H1. cbn [fst] in H1.
      do 4 (eapply partial_bind with (P := fun _ => True);
            [destruct (chk_int _); exact I|intros ? _]).
      cbn [partial]. destruct H1 as (E1 & E2 & E3). destruct Ok0 as (O1 & O2 & O3).
      unfold areas_ok. cbn [body_area relax_area impact_area set_relax_area].
      rewrite E1, E3. split; [auto|]. split; [|auto].
      unfold in_margin. cbn [x_lo x_hi y_lo y_hi]. lia.
  Qed.

  Lemma relax_unstable_body_cell_areas frame dh tol (s : sim) st pend nn e i j ind ic jc :
    same_areas s (fst (relax_unstable_body_cell frame g dh tol s st pend nn e i j ind ic jc)).
  Proof.
    unfold relax_unstable_body_cell, body_onto_terrain, body_onto_single, body_onto_two_soil,
      body_onto_two_body, moved, take_soil, is_bottom. cbv zeta.
    cases; cbn [fst snd]; sa.
  Qed.

  Lemma relax_body_soil_areas frame dh tol (s : sim) :
    partial (relax_body_soil frame g dh tol s) (same_areas s).
  Proof.
    unfold relax_body_soil.
    eapply partial_bind with (P := fun st => same_areas s (fst (fst st))).
    - apply for_each_partial; [|sa].
      intros nn [[s1 pend] dirs] _ H1. cbn [fst] in H1. unfold relax_body_record.
      destruct (nth_error (records s1) nn) as [e|]; [|exact I].
      destruct (fltb _ _); [exact H1|].
      destruct (shuffle dirs (rng s1)) as [dirs' r].
      eapply partial_bind with (P := keeps s); [|intros [s2 p2] H2; exact H2].
      apply for_each_partial; [|eapply same_areas_trans; [exact H1|]; sa].
      intros d [s2 p2] _ H2. cbn [fst] in H2. unfold relax_body_dir. cbv zeta.
      apply partial_guard. intros _.
      destruct (check_unstable_body_cell _ _ _ _ _ _ _ _) as [st|]; [|exact I].
      destruct (nth_error (records s2) nn) as [e2|]; [|exact I].
      destruct (st =? 0); [exact H2|]. cbn [partial].
      eapply same_areas_trans; [exact H2|].
      eapply same_areas_trans; [|apply relax_unstable_body_cell_areas]. sa.
    - intros [[s1 pend] dirs] H1. exact H1.
  Qed.

  Lemma relax_round_impact p s :
    partial (relax_round G g P p s) (fun s' =>
      let a := impact_area s' in let b := body_area s in let r := relax_area s in
      x_lo a = Z.min (x_lo b) (x_lo r) /\ x_hi a = Z.max (x_hi b) (x_hi r) /\
      y_lo a = Z.min (y_lo b) (y_lo r) /\ y_hi a = Z.max (y_hi b) (y_hi r)).
  Proof.
    unfold relax_round. eapply partial_bind; [apply relax_terrain_only|].
    cbv beta. intros s1 (_ & _ & _ & _ & E1 & _).
    eapply partial_weaken; [apply relax_body_soil_only|].
    cbv beta. intros s2 (_ & _ & _ & _ & E2 & _).
    unfold shuffle_records in E2. destruct (shuffle _ _) as [l r].
    cbn [impact_area set_rng set_records] in E2. rewrite E2, E1. cbn. auto.
  Qed.

  Lemma relax_loop_areas p n : forall s,
    areas_ok s -> partial (relax_loop G g P p n s) areas_ok.
  Proof.
    induction n as [|n IH]; intros s H; cbn [relax_loop]; [exact H|].
    destruct (equilibrium s); [exact H|].
    eapply partial_bind with (P := areas_ok); [|intros s1 H1; apply IH; auto].
    unfold relax_round. eapply partial_bind.
    - apply relax_terrain_areas. destruct H as (H1 & H2 & H3).
      split; [exact H1|]. split; [exact H2|].
      unfold in_margin in *. cbn [impact_area update_impact_area set_impact_area x_lo x_hi y_lo y_hi].
      lia.
    - intros s1 H1. eapply partial_weaken; [apply relax_body_soil_areas|]. cbv beta.
      intros s2 H2. eapply areas_ok_same; [exact H2|].
      unfold shuffle_records. destruct (shuffle _ _). exact H1.
  Qed.

  (** The walls of every pose are inside the margin. *)
  Definition raster_margin : Prop :=
    forall p a walls, g_raster G p = Ok (a, walls) -> in_margin a.

  Theorem step_areas fuel p w : raster_margin -> areas_ok (fst w) ->
    partial (step G g P fuel p w) (fun r => areas_ok (fst (fst r))).
  Proof.
    destruct w as [s old]. intros Hr H. cbn [fst] in H. unfold step.
    destruct (g_moved G old p) as [m f].
    assert (H0 : areas_ok (if f then warn s WLargeMove else s)) by (destruct f; exact H).
    destruct m; cbn [negb]; [|exact H0].
    destruct (g_raster G p) as [[a walls]| |] eqn:Er; [|exact I|exact I]. cbn [bind].
    specialize (Hr p a walls Er). destruct H0 as (H1 & H2 & H3).
    eapply partial_bind; [apply calc_body_pos_areas|]. cbv beta. intros s1 (E1 & E2 & E3).
    eapply partial_bind; [apply update_body_soil_areas|]. cbv beta. intros s2 S2.
    eapply partial_bind; [apply move_intersecting_cells_areas|]. cbv beta. intros s3 S3.
    eapply partial_bind with (P := areas_ok); [|intros s4 H4; exact H4].
    apply relax_loop_areas. eapply areas_ok_same; [|eapply areas_ok_same; [exact S3|
      eapply areas_ok_same; [exact S2|]]]; [sa|].
    unfold areas_ok. rewrite E1, E2, E3. auto.
  Qed.

  Theorem run_areas fuel ps : raster_margin -> forall w, areas_ok (fst w) ->
    partial (run G g P fuel ps w) (fun w' => areas_ok (fst w')).
  Proof.
    intros Hr. induction ps as [|p ps IH]; intros w H; cbn [run]; [exact H|].
    eapply partial_bind; [apply step_areas; auto|]. cbv beta.
    intros [w1 b] H1. apply IH. exact H1.
  Qed.

  Lemma new_sim_areas r l : areas_ok (new_sim g r l).
  Proof. unfold areas_ok, in_margin. cbn. lia. Qed.
End Areas.
