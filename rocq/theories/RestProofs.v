(** The area scanned by the relaxation is large enough: when it reports an equilibrium,
    nothing can avalanche outside of that area either. *)
From Coq Require Import ZArith List Bool Lia Permutation.
From Verif Require Import Outcome Num State Base Spec Spec2 ModelRelax ModelIntersect
  ModelBodySoil ModelBodyPos ModelUtils ModelStep RelaxBase RelaxTerrainProofs
  RelaxBodyProofs StepProofs StructProofs EquilibriumProofs CodesProofs AvalancheProofs AreaProofs PairProofs RunProofs PropLemmas.
Import ListNotations.
Open Scope Z_scope.

Lemma for_each_partial_rest {X S} (f : X -> S -> outcome S) (I : list X -> S -> Prop) :
  (forall x l s, I (x :: l) s -> partial (f x s) (I l)) ->
  forall l s, I l s -> partial (for_each l f s) (I []).
Proof.
  intros Hf l. induction l as [|x l IH]; intros s Hs; cbn [for_each]; [exact Hs|].
  eapply partial_bind; [apply Hf, Hs|]. intros s1 H1. apply IH, H1.
Qed.

Section Any.
  Context {A : Num}.
  Local Notation sim := (sim A).
  Variable frame : Z -> Z -> F A -> Pos A.
  Variable g : grid_t A.
  Variables dh tol : F A.
  Variable cell_buffer : Z.

  (** The cells that share a side with one of [l], and those of [l]. *)
  Definition around_cells (l : list (Z * Z)) (i j : Z) : Prop :=
    exists c, In c l /\ Z.abs (i - fst c) + Z.abs (j - snd c) <= 1.

  (** RelaxTerrain: either it found nothing to do, or it only changed the cells it
      selected and their neighbours, and its area surrounds the selected cells. *)
  Lemma relax_terrain_cover (s : sim) :
    partial (relax_terrain frame g dh cell_buffer tol s) (fun s' =>
      exists cells,
        (forall i j, in_area (impact_area s) i j ->
           In (i, j) cells \/ unstable_candidate dh tol s i j = Ok false) /\
        only_in (around_cells cells) s s' /\
        (cells = [] -> relax_area s' = relax_area s) /\
        forall i j ci cj, In (ci, cj) cells ->
          2 <= i < 2 * half_x g -> 2 <= j < 2 * half_y g ->
          ci - cell_buffer <= i < ci + cell_buffer ->
          cj - cell_buffer <= j < cj + cell_buffer ->
          in_area (relax_area s') i j).
  Proof.
    unfold relax_terrain. cbv zeta.
    eapply partial_bind; [apply locate_spec|]. cbv beta. cbn [impact_area set_equilibrium].
    change (unstable_candidate dh tol (set_equilibrium s true)) with
      (unstable_candidate dh tol s).
    intros cells0 Hc. destruct cells0 as [|c0 cells0].
    { cbn [partial]. exists []. split; [exact Hc|].
      split; [apply only_in_equilibrium, only_in_refl|].
      split; [reflexivity|]. intros i j ci cj []. }
    destruct (shuffle (c0 :: cells0) _) as [cells r] eqn:Es. apply shuffle_eq in Es.
    set (L := c0 :: cells0) in *. set (W := around_cells L).
    assert (Hw : forall c, In c cells -> In c L).
    { intros c. apply Permutation_in, Es. }
    eapply partial_bind.
    - apply (for_each_partial_done _ (fun done st =>
        only_in W s (fst (fst st)) /\ Permutation (snd st) directions4 /\
        forall c, In c done ->
          x_lo (snd (fst st)) <= fst c <= x_hi (snd (fst st)) /\
          y_lo (snd (fst st)) <= snd c <= y_hi (snd (fst st)))) with (done := []).
      + intros done [i j] [[s1 box] dirs] (H1 & H2 & H3) Hcell. cbn [fst snd] in *.
        unfold relax_terrain_cell.
        destruct (shuffle dirs (rng s1)) as [dirs' r'] eqn:Ed.
        assert (Hp : Permutation dirs' directions4)
          by (etransitivity; [eapply shuffle_eq; eauto|auto]).
        eapply partial_bind with (P := only_in W s).
        * apply for_each_partial; [|exact H1]. intros d s2 Hd H4.
          eapply partial_weaken; [apply (relax_terrain_dir_only frame g dh tol W)|].
          -- exists (i, j). split; [auto|]. cbn [fst snd]. lia.
          -- exists (i, j). split; [auto|]. apply (Permutation_in _ Hp) in Hd.
             destruct Hd as [<-|[<-|[<-|[<-|[]]]]]; cbn [fst snd]; lia.
          -- cbv beta. intros s3 H5. eapply only_in_trans; eauto.
        * intros s2 H4. cbn [partial fst snd]. split; [auto|]. split; [auto|].
          unfold grow_box. cbn [x_lo x_hi y_lo y_hi].
          intros c [<-|Hd]; [cbn [fst snd]; lia|]. specialize (H3 c Hd). lia.
      + cbn [fst snd]. split; [apply only_in_rng, only_in_equilibrium, only_in_refl|].
        split; [auto|]. intros c [].
    - cbv beta. intros [[s1 box] dirs] (done & D & H1 & _ & H3). cbn [fst snd] in *.
      assert (K : forall x, partial (chk_int x) (fun y => y = x)).
      { intros x. unfold chk_int. destruct (int_ok x); cbn; auto. }
      eapply partial_bind; [apply K|cbv beta; intros ? ->].
      eapply partial_bind; [apply K|cbv beta; intros ? ->].
      eapply partial_bind; [apply K|cbv beta; intros ? ->].
      eapply partial_bind; [apply K|cbv beta; intros ? ->].
      cbn [partial]. exists L. split; [exact Hc|].
      split; [apply only_in_relax_area, H1|]. split; [discriminate|].
      intros i j ci cj Hci Bi Bj Ci Cj.
      assert (Hd : In (ci, cj) done).
      { apply D. left. eapply Permutation_in; [symmetry; exact Es|exact Hci]. }
      specialize (H3 _ Hd). cbn [fst snd] in H3.
      unfold in_area. cbn [relax_area set_relax_area x_lo x_hi y_lo y_hi]. lia.
  Qed.

  (** RelaxBodySoil changes the cells of the records that hold some soil and their
      neighbours. *)
  Definition around_soil (l : list (rec_t A)) (i j : Z) : Prop :=
    exists e, In e l /\ fltb (e_h e) tol = false /\
      Z.abs (i - e_i e) + Z.abs (j - e_j e) <= 1.

  Lemma list_set_other {X} (l : list X) n m x : m <> n ->
    nth_error (list_set l n x) m = nth_error l m.
  Proof.
    revert n m. induction l as [|y l IH]; intros [|n] [|m] H; cbn; try reflexivity; [congruence|]. apply IH. congruence.
  Qed.

  Lemma relax_unstable_body_cell_records (s : sim) st pend nn e i j ind ic jc m : m <> nn ->
    nth_error (records (fst (relax_unstable_body_cell frame g dh tol s st pend nn e i j ind ic jc))) m
    = nth_error (records s) m.
  Proof.
    intros N.
    unfold relax_unstable_body_cell, body_onto_terrain, body_onto_single, body_onto_two_soil,
      body_onto_two_body, take_soil, moved, set_record_h. cbv zeta.
    repeat match goal with
    | |- context [if ?b then _ else _] =>
        lazymatch b with context [if _ then _ else _] => fail | _ => destruct b end
    end; cbn; try reflexivity; apply list_set_other; auto.
  Qed.

  Lemma relax_body_soil_cover (s : sim) :
    partial (relax_body_soil frame g dh tol s) (fun s' =>
      only_in (around_soil (records s)) s s' /\ relax_area s' = relax_area s).
  Proof.
    set (W := around_soil (records s)).
    unfold relax_body_soil.
    eapply partial_bind.
    - apply (for_each_partial_rest _ (fun rest st =>
        NoDup rest /\ Permutation (snd st) directions4 /\
        (only_in W s (fst (fst st)) /\ relax_area (fst (fst st)) = relax_area s) /\
        forall m, In m rest -> nth_error (records (fst (fst st))) m = nth_error (records s) m)).
      + intros nn rest [[s1 pend] dirs] (Nd & H2 & H1 & H3). cbn [fst snd] in *.
        inversion Nd as [|? ? Nn Nr]; subst.
        unfold relax_body_record. destruct (nth_error (records s1) nn) as [e|] eqn:En; [|exact I].
        destruct (fltb (e_h e) tol) eqn:Eh.
        { cbn [partial fst snd]. split; [auto|]. split; [auto|]. split; [auto|].
          intros m Hm. apply H3. right. exact Hm. }
        assert (Ie : In e (records s)).
        { rewrite (H3 nn (or_introl eq_refl)) in En. eapply nth_error_In; eauto. }
        destruct (shuffle dirs (rng s1)) as [dirs' r'] eqn:Ed.
        assert (Hp : Permutation dirs' directions4)
          by (etransitivity; [eapply shuffle_eq; eauto|auto]).
        eapply partial_bind with (P := fun st =>
          (only_in W s (fst st) /\ relax_area (fst st) = relax_area s) /\
          forall m, In m rest -> nth_error (records (fst st)) m = nth_error (records s) m).
        * apply for_each_partial.
          -- intros d [s2 pend2] Hd [[H4 R4] H5]. cbn [fst] in *.
             unfold relax_body_dir. cbv zeta. apply partial_guard. intros _.
             destruct (check_unstable_body_cell _ _ _ _ _ _ _ _) as [st|]; [|exact I].
             destruct (nth_error (records s2) nn) as [e2|] eqn:E2; [|exact I].
             destruct (st =? 0); [cbn [partial fst]; auto|]. cbn [partial].
             split.
             ++ destruct (relax_unstable_body_cell_only frame g dh tol W
                  (set_equilibrium s2 false) st pend2 nn e2 (e_i e) (e_j e) (e_ind e)
                  (e_i e + fst d) (e_j e + snd d)) as [O1 _].
                ** exists e. split; [auto|]. split; [auto|lia].
                ** exists e. split; [auto|]. split; [auto|].
                   apply (Permutation_in _ Hp) in Hd.
                   destruct Hd as [<-|[<-|[<-|[<-|[]]]]]; cbn [fst snd]; lia.
                ** exact E2.
                ** split; [eapply only_in_trans; [exact H4|exact O1]|].
                   rewrite <- R4. clear.
                   unfold relax_unstable_body_cell, body_onto_terrain, body_onto_single,
                     body_onto_two_soil, body_onto_two_body, take_soil, moved. cbv zeta.
                   repeat match goal with
                   | |- context [if ?b then _ else _] =>
                       lazymatch b with context [if _ then _ else _] => fail | _ => destruct b end
                   end; reflexivity.
             ++ intros m Hm. rewrite relax_unstable_body_cell_records
                  by (intros ->; contradiction).
                cbn [records set_equilibrium]. auto.
          -- cbn [fst]. split; [exact H1|]. intros m Hm. apply H3. right. exact Hm.
        * intros [s2 pend2] [H4 H5]. cbn [partial fst snd] in *. auto.
      + cbn [fst snd]. split; [apply seq_NoDup|]. split; [auto|].
        split; [split; [apply only_in_refl|auto]|auto].
    - intros [[s1 pend] dirs] (_ & _ & [H1 R1] & _). cbn [partial fst snd] in *.
      split; [apply only_in_records, H1|exact R1].
  Qed.

  Lemma update_body_soil_body rl (s : sim) :
    partial (update_body_soil g tol rl s) (fun s' =>
      nx s' = nx s /\ ny s' = ny s /\ body s' = body s).
  Proof.
    unfold update_body_soil.
    set (I := fun s' : sim => nx s' = nx s /\ ny s' = ny s /\ body s' = body s).
    eapply partial_bind with (P := I).
    - apply for_each_partial; [|repeat split]. intros e s1 _ H1.
      unfold reset_record. apply partial_guard. intros _. exact H1.
    - intros s1 H1. apply for_each_partial; [|exact H1].
      intros e s2 _ H2. unfold update_record. destruct (f_below _ _); [exact H2|].
      eapply partial_bind with (P := fun _ => True).
      { destruct (rl (e_pos e)); exact Logic.I. }
      intros r _. eapply partial_bind with (P := fun _ => True).
      { destruct (find_wall _ _ _ _ _ _); exact Logic.I. }
      intros [hit best] _. destruct hit as [[[i j] k]|]; [exact H2|].
      destruct (negb _).
      + destruct (fst best) as [[[i j] k]|]; [exact H2|exact Logic.I].
      + apply partial_guard. intros _. exact H2.
  Qed.
End Any.

Section Rest.
  Context {upm : units}.
  Local Notation sim := (sim (ZNum upm)).
  Variable G : geom (ZNum upm).
  Variable g : grid_t (ZNum upm).
  Variable P : params (ZNum upm).
  Variable near : Pos (ZNum upm) -> Prop.
  Local Notation dh := (p_dh_max P : Z).
  Local Notation tol := (p_tol P : Z).
  Hypothesis HP : params_ok g P.

  (** Cells that are neither on the border of the grid nor next to its lower sides. *)
  Definition interior (i j : Z) : Prop :=
    2 <= i < 2 * half_x g /\ 2 <= j < 2 * half_y g.

  (** The terrain of the cell cannot avalanche. *)
  Definition rests (s : sim) (i j : Z) : Prop :=
    forall d, beside d -> ~ terrain_falls dh tol s i j (i + fst d) (j + snd d).

  (** The area of the body contains the cells around the body, at a distance of at
      most two cells. *)
  Definition surrounded (s : sim) : Prop :=
    forall k i j i' j', on_grid s i j -> layer k -> body_at s k i j -> interior i' j' ->
      Z.abs (i' - i) + Z.abs (j' - j) <= 2 -> in_area (body_area s) i' j'.

  (** Only cells of the two areas can avalanche. *)
  Definition rest_outside (s : sim) : Prop :=
    forall i j, interior i j -> ~ in_area (body_area s) i j ->
      ~ in_area (relax_area s) i j -> rests s i j.

  Lemma rests_local (s s' : sim) i j :
    (forall i' j', Z.abs (i' - i) + Z.abs (j' - j) <= 1 ->
       terrain s' i' j' = terrain s i' j' /\
       forall k, body s' k i' j' = body s k i' j' /\ body_soil s' k i' j' = body_soil s k i' j') ->
    rests s i j -> rests s' i j.
  Proof.
    intros E R d Hd. apply check_terrain_zero. specialize (R d Hd).
    apply check_terrain_zero in R. etransitivity; [|exact R].
    destruct (E i j ltac:(lia)) as [-> _].
    assert (Hn : Z.abs (i + fst d - i) + Z.abs (j + snd d - j) <= 1).
    { unfold beside in Hd. lia. }
    destruct (E _ _ Hn) as [Et Eb].
    unfold check_unstable_terrain_cell, body_absent, soil_present.
    rewrite Et, !(proj1 (Eb _)), !(proj2 (Eb _)).
    destruct (body s 0 _ _ <. body s 2 _ _)%num; cbv iota beta;
      rewrite !(proj1 (Eb _)), !(proj2 (Eb _)); reflexivity.
  Qed.

  Lemma positive_record_body (s : sim) (l : list (rec_t (ZNum upm))) cz e :
    0 < tol -> consistent near cz s l -> In e l -> tol <= (e_h e : Z) ->
    on_grid s (e_i e) (e_j e) /\ body_at s (e_ind e) (e_i e) (e_j e).
  Proof.
    intros Ht (_ & _ & Hcell & Hrec) He Hh.
    pose proof Hrec as Hrec'. rewrite Forall_forall in Hrec'.
    destruct (Hrec' e He) as (Hk & Hin & _ & _ & _).
    assert (Hg : on_grid s (e_i e) (e_j e)) by (unfold inside in Hin; unfold on_grid; lia).
    split; [auto|].
    destruct (Hcell _ _ Hg) as (_ & _ & Hs). destruct (Hs _ Hk) as [Hs1 Hs2].
    apply Hs1.
    assert (Pos : 0 < recorded l (e_ind e) (e_i e) (e_j e)).
    { clear Hs1 Hs2 Hs Hcell Hin Hg Hk Hrec'. induction l as [|x l IH]; [destruct He|].
      inversion Hrec as [|? ? Hx Hl]; subst. cbn [recorded].
      assert (N : 0 <= recorded l (e_ind e) (e_i e) (e_j e)).
      { clear - Hl. induction l as [|y l IH]; cbn [recorded]; [lia|].
        inversion Hl as [|? ? Hy Hl']; subst. specialize (IH Hl').
        destruct Hy as (_ & _ & Hy & _). destruct (matches _ _ _ _); lia. }
      destruct He as [->|He].
      - unfold matches. rewrite !Z.eqb_refl. cbn [andb]. lia.
      - specialize (IH Hl He). destruct Hx as (_ & _ & Hx & _).
        destruct (matches _ _ _ _); lia. }
    unfold soil_height in Hs2. unfold soil_on. lia.
  Qed.

  (** One round. *)
  Lemma relax_round_rests p (s s' : sim) :
    3 <= p_cell_buffer P ->
    loop_ok g G near p s -> surrounded s -> rest_outside s ->
    relax_round (A := ZNum upm) G g P p s = Ok s' ->
    surrounded s' /\ rest_outside s'.
  Proof.
    intros Hb L Hs Ho E.
    pose proof (relax_round_good g G near P HP p s L) as Rg. rewrite E in Rg.
    cbn [returns] in Rg. destruct Rg as (L' & (Dm & Bq & Ba & _ & _)).
    split.
    { intros k i j i' j' Hg Hk Hb' Hi Hd. rewrite Ba. apply (Hs k i j i' j'); auto.
      - unfold on_grid in *. destruct Dm as [-> ->] in Hg. exact Hg.
      - unfold body_at in *. rewrite !Bq in Hb'. exact Hb'. }
    destruct L as (Hgood & Hsz & Hba & Hra).
    pose proof HP as (P1 & P2 & P3 & P4 & P5 & P6 & P7).
    unfold relax_round in E. set (s0 := update_impact_area s) in E.
    apply bind_ok in E as (s1 & E1 & E2).
    (* the state before RelaxBodySoil is consistent *)
    assert (G1 : good near (cell_z g) (g_frame G p) s1 (records s1) /\ flows_w s0 s1).
    { assert (Hgood0 : good near (cell_z g) (g_frame G p) s0 (records s0)).
      { apply (good_same near (cell_z g) (g_frame G p) s); [repeat split|exact Hgood]. }
      assert (Hroom : int_room (p_cell_buffer P) s0).
      { destruct Hsz as [X1 X2]. unfold int_room. subst s0. cbn. rewrite X1, X2. lia. }
      assert (Hia : area_in s0 (impact_area s0)).
      { subst s0. unfold area_in in *. cbn. lia. }
      assert (Q : returns (relax_terrain (g_frame G p) g dh (p_cell_buffer P) tol s0)
        (fun s' => good near (cell_z g) (g_frame G p) s' (records s') /\ flows_w s0 s' /\
                 impact_area s' = impact_area s0 /\ area_in s0 (relax_area s'))).
      { apply relax_terrain_good with (near := near); auto. }
      zn. rewrite E1 in Q. cbn [returns] in Q. tauto. }
    destruct G1 as [G1 ((D1x & D1y) & B1 & _)].
    pose proof (partial_ok _ _ _ (relax_terrain_cover (A := ZNum upm) (g_frame G p) g dh tol
      (p_cell_buffer P) s0) E1) as (cells & C1 & C2 & C3 & C4).
    set (s2 := shuffle_records s1) in E2.
    pose proof (partial_ok _ _ _ (relax_body_soil_cover (A := ZNum upm) (g_frame G p) g dh tol s2) E2)
      as [O2 R2].
    assert (S2 : terrain s2 = terrain s1 /\ body s2 = body s1 /\ body_soil s2 = body_soil s1 /\
      relax_area s2 = relax_area s1 /\ Permutation (records s2) (records s1)).
    { subst s2. unfold shuffle_records.
      destruct (shuffle (records s1) (rng s1)) as [l r] eqn:Sh. apply shuffle_eq in Sh.
      cbn. auto 10. }
    destruct S2 as (T2 & U2 & V2 & W2 & Pm).
    destruct C2 as (_ & _ & B2 & BA & _ & C2).
    destruct O2 as (_ & _ & B3 & _ & _ & O2).
    intros i j Hi Nb Nr.
    rewrite Ba in Nb. rewrite R2, W2 in Nr.
    (* the cells around are unchanged *)
    assert (F1 : forall i' j', Z.abs (i' - i) + Z.abs (j' - j) <= 1 -> ~ around_cells cells i' j').
    { intros i' j' Hd ([ci cj] & Hc & Hd'). cbn [fst snd] in Hd'. apply Nr.
      destruct Hi as [Hi Hj]. apply (C4 i j ci cj Hc Hi Hj); lia. }
    assert (F2 : forall i' j', Z.abs (i' - i) + Z.abs (j' - j) <= 1 ->
      ~ around_soil (A := ZNum upm) tol (records s2) i' j').
    { intros i' j' Hd (e & He & Hh & Hd'). apply Nb.
      cbn [fltb ZNum] in Hh. apply Z.ltb_ge in Hh.
      destruct (positive_record_body s1 (records s1) (cell_z g) e P1) as [Hg Hbd].
      { apply G1. }
      { eapply Permutation_in; eauto. }
      { exact Hh. }
      assert (Hk : layer (e_ind e)).
      { destruct G1 as ((_ & _ & _ & Fr) & _). rewrite Forall_forall in Fr.
        apply (Fr e). eapply Permutation_in; eauto. }
      apply (Hs (e_ind e) (e_i e) (e_j e) i j); auto.
      - unfold on_grid in *. rewrite D1x, D1y in Hg. exact Hg.
      - unfold body_at in *. rewrite !B1 in Hbd. exact Hbd.
      - lia. }
    assert (R0 : rests s i j).
    { destruct (Z_le_dec (x_lo (impact_area s0)) i), (Z_lt_dec i (x_hi (impact_area s0))),
        (Z_le_dec (y_lo (impact_area s0)) j), (Z_lt_dec j (y_hi (impact_area s0)));
      try (apply Ho; auto; subst s0; cbn in *; unfold in_area; lia).
      destruct (C1 i j ltac:(unfold in_area; lia)) as [Hc|Hc].
      - exfalso. apply (F1 i j ltac:(lia)). exists (i, j). split; [auto|cbn; lia].
      - intros d Hd. apply beside_directions4 in Hd.
        apply (candidate_false dh tol s0 i j d) in Hc; auto. }
    apply (rests_local s s'); [|exact R0].
    intros i' j' Hd.
    destruct (C2 i' j' (F1 i' j' Hd)) as [X1 X2], (O2 i' j' (F2 i' j' Hd)) as [Y1 Y2].
    split; [rewrite Y1, T2, X1; reflexivity|]. intros k.
    split; [rewrite B3, U2, B2; reflexivity|rewrite Y2, V2, X2; reflexivity].
  Qed.

  (** The relaxation ends with all the interior at rest. *)
  Theorem relax_loop_rests p n : 3 <= p_cell_buffer P -> forall (s s' : sim),
    loop_ok g G near p s -> surrounded s -> rest_outside s -> equilibrium s = false ->
    relax_loop (A := ZNum upm) G g P p n s = Ok s' -> equilibrium s' = true ->
    forall i j, interior i j -> rests s' i j.
  Proof.
    intros Hb. induction n as [|n IH]; intros s s' L Hs Ho E0 E Q; cbn [relax_loop] in E.
    - injection E as <-. congruence.
    - rewrite E0 in E. apply bind_ok in E as (s1 & E1 & E).
      destruct (relax_round_rests p s s1 Hb L Hs Ho E1) as [Hs1 Ho1].
      pose proof (relax_round_good g G near P HP p s L) as Rg. rewrite E1 in Rg.
      destruct Rg as (L1 & F1).
      destruct (equilibrium s1) eqn:Q1.
      + assert (s' = s1).
        { destruct n; cbn [relax_loop] in E; [|rewrite Q1 in E]; congruence. }
        subst s'. intros i j Hi.
        destruct (relax_round_rest G g P p s s1 E1 Q1) as ((AR & _) & Et & Eb & Ebs & _).
        pose proof (partial_ok _ _ _ (relax_round_impact (A := ZNum upm) G g P p s) E1)
          as Im. cbv beta zeta in Im.
        destruct (Z_le_dec (x_lo (impact_area s1)) i), (Z_lt_dec i (x_hi (impact_area s1))),
          (Z_le_dec (y_lo (impact_area s1)) j), (Z_lt_dec j (y_hi (impact_area s1)));
        try (apply (rests_local s);
             [intros; rewrite Et, Eb, Ebs; auto
             |apply Ho; auto; unfold in_area; lia]).
        intros d Hd. apply AR; [unfold in_area; lia|exact Hd].
      + apply (IH s1 s'); auto.
  Qed.

  (** The area computed with the walls surrounds them. *)
  Definition roomy (legal : pose G -> Prop) : Prop :=
    forall p a walls, legal p -> g_raster G p = Ok (a, walls) ->
    forall w i j k i' j', In w walls -> In (i, j, k) w -> interior i' j' ->
      Z.abs (i' - i) + Z.abs (j' - j) <= 2 -> in_area a i' j'.

  (** A call of Step, when all the terrain is to be relaxed (as it is the case of a new
      SimOut). *)
  Theorem step_rests legal fuel p (w w' : world G) :
    grid_ok g -> geom_ok g G legal near -> roomy legal -> 3 <= p_cell_buffer P ->
    state_ok g G legal near w -> legal p ->
    (forall i j, interior i j -> in_area (relax_area (fst w)) i j) ->
    step (A := ZNum upm) G g P fuel p w = Ok (w', true) -> equilibrium (fst w') = true ->
    forall i j, interior i j -> rests (fst w') i j.
  Proof.
    intros Hg HG Hr Hb Hw Hp Ha E Q. destruct w as [s old].
    destruct (step_phases G g P fuel p s old w' E) as (a & walls & s1 & s2 & s3 & H).
    cbv zeta in H. set (s0 := if snd (g_moved G old p) then warn s WLargeMove else s) in H.
    destruct H as (E0 & E1 & E2 & E3 & E4 & _).
    assert (Hw0 : state_ok g G legal near (s0, old)).
    { subst s0. destruct (snd _); exact Hw. }
    assert (R0 : relax_area s0 = relax_area s) by (subst s0; destruct (snd _); reflexivity).
    pose proof (phases_ok g G legal near Hg HG P fuel p s0 s1 s2 s3 _ old a walls 0
      HP Hw0 Hp E0 E1 E2 E3 eq_refl) as Hw3.
    set (s4 := set_equilibrium s3 false) in *.
    pose proof (partial_ok _ _ _ (calc_body_pos_areas (A := ZNum upm) g (p_tol P) a walls s0) E1)
      as (A1 & A2 & _).
    pose proof (partial_ok _ _ _ (update_body_soil_areas (A := ZNum upm) g (p_tol P)
      (g_reloc G old p) s1) E2) as S2.
    pose proof (partial_ok _ _ _ (move_intersecting_cells_areas (A := ZNum upm)
      (g_frame G p) (p_tol P) fuel s2) E3) as S3.
    apply (relax_loop_rests p (p_max_iterations P) Hb s4 (fst w')); auto.
    - destruct Hw3 as (Z1 & Z2 & Z3 & Z4 & Z5 & Z6 & Z7 & _).
      pose proof Z1 as [X1 X2].
      split; [|split; [exact Z1|unfold area_in, within_grid in *; rewrite X1, X2; lia]].
      split; [exact Z2|]. split; [exact Z3|]. split; [exact Z4|].
      intros i j k Hij Hk Hbd. apply (Z5 k i j Hij Hk Hbd).
    - pose proof (partial_ok _ _ _ (update_body_soil_body (A := ZNum upm) g (p_tol P)
        (g_reloc G old p) s1) E2) as (_ & _ & B2).
      pose proof (partial_ok _ _ _ (move_intersecting_cells_only (A := ZNum upm)
        (g_frame G p) (p_tol P) fuel s2) E3) as (_ & _ & B3 & _).
      destruct Hw0 as ([X1 X2] & _ & _ & _ & Z5 & Z6 & _ & _).
      destruct HG as [HG1 _]. destruct (HG1 p Hp) as (a' & walls' & Er & (K1 & K2 & K3) & _).
      assert (Ew : a' = a /\ walls' = walls) by (split; congruence).
      destruct Ew as [-> ->].
      destruct (calc_body_pos_exact g (p_tol P) a walls s0 s1 Hg) as (_ & C2 & _); auto.
      { apply HP. }
      { intros i j Hi. unfold in_area, within_grid in *. unfold on_grid. rewrite X1, X2. lia. }
      { intros k i j Hi Hk Hbd. apply (Z5 k i j Hi Hk Hbd). }
      { intros w0 i j k Iw Ic. destruct (K3 w0 i j k Iw Ic) as [Q1 Q2].
        split; [|exact Q2]. unfold in_area, within_grid in *. unfold inside. rewrite X1, X2. lia. }
      intros k i j i' j' Hij Hk Hbd Hi Hd.
      destruct (C2 k i j) as (w0 & z & Iw & Ic).
      { destruct Hw3 as ([V1 V2] & _). unfold on_grid in *. rewrite V1, V2 in Hij.
        rewrite X1, X2. exact Hij. }
      { exact Hk. }
      { unfold body_at in *. cbn [body s4 set_equilibrium] in Hbd.
        rewrite B3, B2 in Hbd. exact Hbd. }
      cbn [body_area s4 set_equilibrium]. destruct S2 as (Y2 & _), S3 as (Y3 & _).
      rewrite Y3, Y2, A1. apply (Hr p a walls Hp E0 w0 i j z i' j' Iw Ic Hi Hd).
    - intros i j Hi _ N. exfalso. apply N.
      cbn [relax_area s4 set_equilibrium]. destruct S2 as (_ & Y2 & _), S3 as (_ & Y3 & _).
      rewrite Y3, Y2, A2, R0. apply Ha, Hi.
  Qed.
End Rest.

Section Bare.
  Context {upm : units}.
  Local Notation sim := (sim (ZNum upm)).
  Variable G : geom (ZNum upm).
  Variable g : grid_t (ZNum upm).
  Variable P : params (ZNum upm).
  Local Notation dh := (p_dh_max P : Z).
  Hypothesis HP : params_ok g P.

  (** Without body, whatever the terrain. *)
  Theorem bare_rests p : (cell_z g : Z) <= dh -> 3 <= p_cell_buffer P -> forall (s : sim),
    bare g s -> sized g s -> within_grid g (body_area s) -> within_grid g (relax_area s) ->
    rest_outside g P s -> equilibrium s = false ->
    forall n, (Z.to_nat (squares s) < n)%nat ->
    exists s', relax_loop (A := ZNum upm) G g P p n s = Ok s' /\ equilibrium s' = true /\
      total_soil s' = total_soil s /\ forall i j, interior g i j -> rests P s' i j.
  Proof.
    intros Hc Hb s B Hs W1 W2 Ho E n Hn.
    destruct (relax_converges G g P p HP Hc s B Hs W1 W2 E n Hn)
      as (s' & R & Q & _ & _ & T).
    exists s'. split; [auto|]. split; [auto|]. split; [auto|].
    apply (relax_loop_rests G g P (fun _ => True) HP p n Hb s s'); auto.
    - apply bare_loop_ok; auto.
    - intros k i j i' j' Hg Hk [H|H]; exfalso; apply H, B; auto.
  Qed.
End Bare.
