(** What the flag equilibrium_ and the status codes mean. *)
From Coq Require Import ZArith List Bool Lia Permutation.
From Verif Require Import Outcome Num State Base Spec InvBase ModelRelax RelaxBase
  StructProofs ModelBodySoil ModelBodyPos ModelUtils ModelStep.
Import ListNotations.
Open Scope Z_scope.

(** Loops whose invariant may depend on what is left to do. *)
Lemma for_each_partial_done {X S} (f : X -> S -> outcome S) (I : list X -> S -> Prop) l :
  (forall done x s, I done s -> In x l -> partial (f x s) (I (x :: done))) ->
  forall done s, I done s ->
  partial (for_each l f s) (fun s' => exists done',
    (forall x, In x l \/ In x done -> In x done') /\ I done' s').
Proof.
  induction l as [|x l IH]; intros Hf done s Hs; cbn [for_each].
  - cbn. exists done. split; [|auto]. intros y [[]|H]; auto.
  - eapply partial_bind; [apply Hf; [eauto|left; auto]|]. intros s1 H1.
    eapply partial_weaken; [apply (IH (fun d y s2 H2 H3 => Hf d y s2 H2 (or_intror H3)) _ _ H1)|].
    cbv beta. intros s2 (done' & D & H2). exists done'. split; [|auto].
    intros y [[->|H]|H]; apply D; [right; left; auto|auto|right; right; auto].
Qed.

Section Quiet.
  Context {A : Num}.
  Local Notation sim := (sim A).
  Variable frame : Z -> Z -> F A -> Pos A.
  Variable g : grid_t A.
  Variables dh_max tol : F A.
  Variable cell_buffer : Z.

  (** Nothing that Step works on has changed. *)
  Definition untouched (s s' : sim) : Prop :=
    nx s' = nx s /\ ny s' = ny s /\ terrain s' = terrain s /\ body s' = body s /\
    body_soil s' = body_soil s /\ records s' = records s.

  Lemma untouched_refl s : untouched s s.
  Proof. repeat split. Qed.

  Lemma untouched_trans s1 s2 s3 : untouched s1 s2 -> untouched s2 s3 -> untouched s1 s3.
  Proof. unfold untouched. intuition congruence. Qed.

  Lemma check_terrain_untouched s s' i j h :
    untouched s s' ->
    check_unstable_terrain_cell tol s' i j h = check_unstable_terrain_cell tol s i j h.
  Proof.
    intros (E1 & E2 & E3 & E4 & E5 & E6).
    unfold check_unstable_terrain_cell, body_absent, soil_present. rewrite E3, E4, E5.
    reflexivity.
  Qed.

  Lemma check_body_untouched s s' i0 j0 k i j h :
    untouched s s' ->
    check_unstable_body_cell tol s' i0 j0 k i j h = check_unstable_body_cell tol s i0 j0 k i j h.
  Proof.
    intros (E1 & E2 & E3 & E4 & E5 & E6).
    unfold check_unstable_body_cell, body_absent, soil_present. rewrite E3, E4, E5.
    reflexivity.
  Qed.

  Lemma relax_unstable_terrain_cell_eq s st i j ic jc :
    partial (relax_unstable_terrain_cell frame g dh_max tol s st i j ic jc)
      (fun s' => equilibrium s' = equilibrium s).
  Proof.
    unfold relax_unstable_terrain_cell, terrain_onto_body_soil, terrain_onto_body. cbv zeta.
    repeat match goal with
    | |- context [if ?b then _ else _] =>
        lazymatch b with context [if _ then _ else _] => fail | _ => destruct b end
    end; cbn; auto.
    all: destruct (fltb _ _); reflexivity.
  Qed.

  (** The cell cannot avalanche in direction [d]. *)
  Definition still (s : sim) (c d : Z * Z) : Prop :=
    check_unstable_terrain_cell tol s (fst c + fst d) (snd c + snd d)
      (fsub (terrain s (fst c) (snd c)) dh_max) = 0.

  Lemma still_untouched s s' c d : untouched s s' -> still s c d -> still s' c d.
  Proof.
    unfold still. intros U. rewrite (check_terrain_untouched s s') by auto.
    destruct U as (_ & _ & -> & _). auto.
  Qed.

  Lemma relax_terrain_dir_quiet (s0 s : sim) i j d done :
    (equilibrium s = true -> untouched s0 s /\ forall d', In d' done -> still s0 (i, j) d') ->
    partial (relax_terrain_dir frame g dh_max tol i j d s)
      (fun s' => equilibrium s' = true ->
         untouched s0 s' /\ forall d', In d' (d :: done) -> still s0 (i, j) d').
  Proof.
    intros H. unfold relax_terrain_dir. cbv zeta. apply partial_guard. intros _.
    destruct (_ =? 0) eqn:E.
    - cbn [partial]. intros Q. destruct (H Q) as [U S]. split; [auto|].
      intros d' [<-|Hd]; [|auto]. apply Z.eqb_eq in E. unfold still. cbn [fst snd].
      rewrite (check_terrain_untouched s0 s) in E by exact U.
      destruct U as (_ & _ & U3 & _). rewrite U3 in E. exact E.
    - eapply partial_weaken; [apply relax_unstable_terrain_cell_eq|]. cbv beta. cbn.
      intros s' -> Q. discriminate.
  Qed.

  Lemma locate_spec (s : sim) :
    partial (locate_unstable_terrain_cell dh_max tol s)
      (fun l => forall i j, in_area (impact_area s) i j ->
         In (i, j) l \/ unstable_candidate dh_max tol s i j = Ok false).
  Proof.
    unfold locate_unstable_terrain_cell.
    eapply partial_weaken.
    - apply (for_each_partial_done _ (fun done (acc : list (Z * Z)) =>
        forall c, In c done -> In c acc \/ unstable_candidate dh_max tol s (fst c) (snd c) = Ok false)
        _ ) with (done := []); [|intros c []].
      intros done c acc H _.
      destruct (unstable_candidate dh_max tol s (fst c) (snd c)) as [b| |] eqn:E; cbn; auto.
      intros c' [<-|Hc].
      + destruct b; [left; apply in_app_iff; right; left; auto|auto].
      + destruct (H c' Hc) as [Q|Q]; [left|auto]. destruct b; [apply in_app_iff|]; auto.
    - cbv beta. intros l (done & D & H) i j Hij.
      apply (H (i, j)). apply D. left. apply in_area_cells; auto.
  Qed.

  Theorem relax_terrain_quiet (s : sim) :
    partial (relax_terrain frame g dh_max cell_buffer tol s)
      (fun s' => equilibrium s' = true ->
         untouched s s' /\
         forall i j, in_area (impact_area s) i j ->
           unstable_candidate dh_max tol s i j = Ok false \/
           forall d, In d directions4 -> still s (i, j) d).
  Proof.
    unfold relax_terrain. cbv zeta.
    eapply partial_bind; [apply locate_spec|]. cbv beta. cbn [impact_area set_equilibrium].
    change (unstable_candidate dh_max tol (set_equilibrium s true)) with
      (unstable_candidate dh_max tol s).
    intros cells Hc. destruct cells as [|c0 cells0].
    { cbn [partial]. intros _. split; [repeat split|]. intros i j Hij. left.
      destruct (Hc i j Hij) as [[]|Q]; exact Q. }
    destruct (shuffle (c0 :: cells0) _) as [cells r] eqn:Es.
    assert (Hin : forall c, In c (c0 :: cells0) -> In c cells).
    { intros c Q. eapply Permutation_in; [|exact Q]. symmetry. eapply shuffle_eq; eauto. }
    eapply partial_bind.
    - apply (for_each_partial_done _ (fun done st =>
        Permutation (snd st) directions4 /\
        (equilibrium (fst (fst st)) = true ->
           untouched s (fst (fst st)) /\
           forall c, In c done -> forall d, In d directions4 -> still s c d)))
        with (done := []).
      + intros done [i j] [[s1 box] dirs] [H2 H1] _. cbn [fst snd] in *.
        unfold relax_terrain_cell.
        destruct (shuffle dirs (rng s1)) as [dirs' r'] eqn:Ed.
        assert (Hp : Permutation dirs' directions4)
          by (etransitivity; [eapply shuffle_eq; eauto|auto]).
        eapply partial_bind.
        * apply (for_each_partial_done _ (fun dd s2 => equilibrium s2 = true ->
            (untouched s s2 /\ (forall d', In d' dd -> still s (i, j) d')) /\
            (forall c, In c done -> forall d, In d directions4 -> still s c d)))
            with (done := []).
          -- intros dd d s2 H3 _.
             pose proof (relax_terrain_dir_quiet s s2 i j d dd) as Q.
             destruct (relax_terrain_dir frame g dh_max tol i j d s2) as [s3| |] eqn:E3;
               cbn [partial] in *; auto.
             intros E. assert (E2 : equilibrium s2 = true).
             { unfold relax_terrain_dir in E3. cbv zeta in E3. apply guard_ok in E3 as [_ E3].
               destruct (_ =? 0); [inversion E3; subst; auto|].
               eapply partial_ok in E3; [|apply relax_unstable_terrain_cell_eq].
               cbn in E3. congruence. }
             destruct (H3 E2) as [H4 H5]. split; [|auto]. apply Q; [|auto].
             intros _. exact H4.
          -- intros Q. destruct (H1 Q) as [U S]. split; [|auto]. split; [auto|]. intros d' [].
        * cbv beta. intros s2 (dd & D & H3). cbn [partial fst snd]. split; [auto|].
          intros Q. destruct (H3 Q) as [[U H4] H5]. split; [auto|].
          intros c [<-|Hcd] d Hd; [|auto]. apply H4, D. left.
          eapply Permutation_in; [symmetry; exact Hp|exact Hd].
      + cbn [fst snd]. split; [auto|]. intros _. split; [repeat split|]. intros c [].
    - cbv beta. intros [[s1 box] dirs] (done & D & _ & H1). cbn [fst snd] in *.
      eapply partial_bind with (P := fun _ => True); [destruct (chk_int _); cbn; auto|intros xl _].
      eapply partial_bind with (P := fun _ => True); [destruct (chk_int _); cbn; auto|intros xh _].
      eapply partial_bind with (P := fun _ => True); [destruct (chk_int _); cbn; auto|intros yl _].
      eapply partial_bind with (P := fun _ => True); [destruct (chk_int _); cbn; auto|intros yh _].
      cbn [partial]. cbn [equilibrium set_relax_area]. intros Q.
      destruct (H1 Q) as [U S]. split; [exact U|].
      intros i j Hij. destruct (Hc i j Hij) as [L|L]; [|auto]. right.
      apply S, D. left. apply Hin, L.
  Qed.

  (** The record cannot avalanche in direction [d]. *)
  Definition rec_still (s : sim) (e : rec_t A) (d : Z * Z) : Prop :=
    check_unstable_body_cell tol s (e_i e) (e_j e) (e_ind e) (e_i e + fst d) (e_j e + snd d)
      (fsub (body_soil s (e_ind e + 1) (e_i e) (e_j e)) dh_max) = Some 0.

  Lemma relax_unstable_body_cell_eq s st pend nn e i j ind ic jc :
    equilibrium (fst (relax_unstable_body_cell frame g dh_max tol s st pend nn e i j ind ic jc))
      = equilibrium s.
  Proof.
    unfold relax_unstable_body_cell, body_onto_terrain, body_onto_single, body_onto_two_soil,
      body_onto_two_body, take_soil, moved. cbv zeta.
    repeat match goal with
    | |- context [if ?b then _ else _] =>
        lazymatch b with context [if _ then _ else _] => fail | _ => destruct b end
    end; reflexivity.
  Qed.

  Theorem relax_body_soil_quiet (s : sim) :
    partial (relax_body_soil frame g dh_max tol s)
      (fun s' => equilibrium s' = true ->
         equilibrium s = true /\ untouched s s' /\
         forall e, In e (records s) -> fltb (e_h e) tol = false ->
           forall d, In d directions4 -> rec_still s e d).
  Proof.
    unfold relax_body_soil.
    eapply partial_bind.
    - apply (for_each_partial_done _ (fun done st =>
        Permutation (snd st) directions4 /\
        (equilibrium (fst (fst st)) = true ->
           (equilibrium s = true /\ untouched s (fst (fst st)) /\ snd (fst st) = []) /\
           forall nn e, In nn done -> nth_error (records s) nn = Some e ->
             fltb (e_h e) tol = false -> forall d, In d directions4 -> rec_still s e d)))
        with (done := []).
      + intros done nn [[s1 pend] dirs] [H2 H1] _. cbn [fst snd] in *.
        unfold relax_body_record. destruct (nth_error (records s1) nn) as [e|] eqn:En; [|exact I].
        destruct (fltb (e_h e) tol) eqn:Eh.
        * cbn [partial fst snd]. split; [auto|]. intros Q. destruct (H1 Q) as [U S].
          split; [auto|]. intros nn' e' [<-|Hn] En' Eh'; [|eauto].
          destruct U as (_ & (_ & _ & _ & _ & _ & U) & _). rewrite U in En. congruence.
        * destruct (shuffle dirs (rng s1)) as [dirs' r'] eqn:Ed.
          assert (Hp : Permutation dirs' directions4)
            by (etransitivity; [eapply shuffle_eq; eauto|auto]).
          eapply partial_bind.
          -- apply (for_each_partial_done _ (fun dd st => equilibrium (fst st) = true ->
               (equilibrium s1 = true /\ untouched s1 (fst st) /\ snd st = pend) /\
               forall d, In d dd -> rec_still s1 e d)) with (done := []).
             ++ intros dd d [s2 pend2] H3 _. cbn [fst snd] in *.
                unfold relax_body_dir. cbv zeta. apply partial_guard. intros _.
                destruct (check_unstable_body_cell _ _ _ _ _ _ _ _) as [st|] eqn:Ec; [|exact I].
                destruct (nth_error (records s2) nn) as [e2|] eqn:E2; [|exact I].
                destruct (Z.eqb_spec st 0) as [->|Nz].
                ** cbn [partial fst snd]. intros Q. destruct (H3 Q) as [(U1 & U2 & U3) S].
                   split; [auto|]. intros d' [<-|Hd]; [|auto].
                   unfold rec_still. rewrite (check_body_untouched s1 s2) in Ec by exact U2.
                   destruct U2 as (_ & _ & _ & _ & V5 & _). rewrite V5 in Ec. exact Ec.
                ** cbn [partial]. rewrite relax_unstable_body_cell_eq. discriminate.
             ++ cbn [fst snd]. intros Q. split; [|intros d []].
                split; [auto|]. split; [repeat split|auto].
          -- cbv beta. intros [s2 pend2] (dd & D & H3). cbn [partial fst snd] in *.
             split; [auto|]. intros Q. destruct (H3 Q) as [(U1 & U2 & U3) S].
             destruct (H1 U1) as [(V1 & V2 & V3) S'].
             split; [split; [auto|split; [eapply untouched_trans; eauto|congruence]]|].
             intros nn' e' [<-|Hn] En' Eh' d Hd; [|eauto].
             assert (e' = e).
             { destruct V2 as (_ & _ & _ & _ & _ & V2). rewrite V2 in En. congruence. }
             subst e'. assert (R : rec_still s1 e d).
             { apply S, D. left. eapply Permutation_in; [symmetry; exact Hp|exact Hd]. }
             unfold rec_still in *. rewrite (check_body_untouched s s1) in R by auto.
             destruct V2 as (_ & _ & _ & _ & V5 & _). rewrite V5 in R. exact R.
      + cbn [fst snd]. split; [auto|]. intros Q. split; [|intros nn e []].
        split; [auto|]. split; [repeat split|auto].
    - cbv beta. intros [[s1 pend] dirs] (done & D & _ & H1). cbn [partial fst snd] in *.
      cbn [equilibrium set_records]. intros Q. destruct (H1 Q) as [(U1 & U2 & U3) S].
      split; [auto|]. split.
      + subst pend. rewrite app_nil_r. exact U2.
      + intros e He Hh. apply In_nth_error in He as [nn Hn].
        apply (S nn e); auto. apply D. left. apply in_seq.
        assert (nn < length (records s))%nat by (apply nth_error_Some; congruence). lia.
  Qed.
End Quiet.
