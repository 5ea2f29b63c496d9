(** A pile of soil that can go nowhere and is never at equilibrium: the neighbours of
    the pile carry a body that is higher than the floor of the pile, under which the
    terrain is full. CheckUnstableBodyCell asks to move soil under that body
    (relax.cpp:493-501, 509-517), RelaxUnstableBodyCell moves none (relax.cpp:826-846). *)
From Coq Require Import ZArith List Bool Lia Permutation.
From Verif Require Import Outcome Num State Base Spec InvBase ModelRelax RelaxBase
  ModelIntersect ModelBodySoil ModelBodyPos ModelUtils ModelStep Spec2 StepProofs
  StructProofs EquilibriumProofs StatusProofs AvalancheProofs PairProofs.
Import ListNotations.
Open Scope Z_scope.

Section Stuck.
  Context {upm : units}.
  Local Notation sim := (sim (ZNum upm)).
  Local Notation rec := (rec_t (ZNum upm)).
  Variable G : geom (ZNum upm).
  Variable g : grid_t (ZNum upm).
  Variable P : params (ZNum upm).
  Variable p : pose G.
  Variable near : Pos (ZNum upm) -> Prop.
  Variable pos : Pos (ZNum upm).
  Hypothesis Hg : grid_ok g.
  Hypothesis HP : params_ok g P.
  Hypothesis Hx : half_x g = 2.
  Hypothesis Hy : half_y g = 2.
  Hypothesis Hcz : (cell_z g : Z) = 10.
  Hypothesis Hdh : (p_dh_max P : Z) = 20.
  Hypothesis Htol : (p_tol P : Z) = 1.

  (** The centre and its four neighbours. *)
  Definition centre (i j : Z) : bool := (i =? 2) && (j =? 2).
  Definition arm (i j : Z) : bool :=
    ((i =? 1) && (j =? 2)) || ((i =? 3) && (j =? 2)) ||
    ((i =? 2) && (j =? 1)) || ((i =? 2) && (j =? 3)).

  Definition st_terrain (i j : Z) : Z := if arm i j then 40 else 20.
  Definition st_body (k i j : Z) : Z :=
    if centre i j then (if k =? 0 then 20 else if k =? 1 then 30 else 0)
    else if arm i j then (if k =? 0 then 40 else if k =? 1 then 50 else 0)
    else 0.
  Definition st_soil (k i j : Z) : Z :=
    if centre i j then (if k =? 0 then 30 else if k =? 1 then 80 else 0) else 0.
  Definition st_rec : rec := @mkRec (ZNum upm) 0 2 2 pos 50.

  Definition stuck (s : sim) : Prop :=
    nx s = 5 /\ ny s = 5 /\ records s = [st_rec] /\
    forall i j, on_grid s i j ->
      (terrain s i j : Z) = st_terrain i j /\
      forall k, 0 <= k < 4 ->
        (body s k i j : Z) = st_body k i j /\ (body_soil s k i j : Z) = st_soil k i j.

  Lemma stuck_same s s' : stuck s ->
    nx s' = nx s -> ny s' = ny s -> terrain s' = terrain s -> body s' = body s ->
    body_soil s' = body_soil s -> records s' = records s -> stuck s'.
  Proof.
    unfold stuck, on_grid. intros (N1 & N2 & R & V) -> -> -> -> -> ->. auto.
  Qed.

  Lemma stuck_no_fall s i j ic jc :
    stuck s -> on_grid s i j -> on_grid s ic jc ->
    ~ terrain_falls (p_dh_max P) (p_tol P) s i j ic jc.
  Proof.
    intros (_ & _ & _ & V) Gi Gc (F & _).
    rewrite (proj1 (V i j Gi)), (proj1 (V ic jc Gc)), Hdh, Htol in F.
    unfold st_terrain in F. destruct (arm i j), (arm ic jc); lia.
  Qed.

  Lemma stuck_terrain frame s :
    stuck s ->
    partial (relax_terrain (A := ZNum upm) frame g (p_dh_max P) (p_cell_buffer P) (p_tol P) s)
      stuck.
  Proof.
    intros W. set (s0 := set_equilibrium s true).
    assert (W0 : stuck s0) by (eapply stuck_same; eauto).
    unfold relax_terrain. fold s0.
    eapply partial_bind; [apply (locate_in (A := ZNum upm))|]. cbv beta.
    intros cells _. destruct cells as [|c cells]; [exact W0|].
    destruct (shuffle (c :: cells) (rng s0)) as [cells' r] eqn:Sh.
    eapply partial_bind with (P := fun st => stuck (fst (fst st))).
    - apply for_each_partial.
      + intros [i j] [[s1 box] dirs] Hin Q. cbn [fst snd] in *.
        unfold relax_terrain_cell. destruct (shuffle dirs (rng s1)) as [dirs' r'] eqn:Sd.
        eapply partial_bind with (P := stuck).
        * apply for_each_partial.
          -- intros d s2 _ W2. unfold relax_terrain_dir.
             destruct (inb s2 i j && inb s2 (i + fst d) (j + snd d)) eqn:Eg; [|exact I].
             cbn [guard]. apply andb_true_iff in Eg as [Gi Gc]. apply inb_true in Gi, Gc.
             pose proof (check_terrain_zero (p_dh_max P) (p_tol P) s2 i j (i + fst d) (j + snd d))
               as [_ Z0]. zn. rewrite Z0; [exact W2|]. apply stuck_no_fall; auto.
          -- eapply stuck_same; eauto.
        * intros s2 W2. exact W2.
      + cbn [fst snd]. eapply stuck_same; eauto.
    - intros [[s1 box] dirs] W1. cbn [fst snd] in W1.
      do 4 (eapply partial_bind with (P := fun _ => True);
            [destruct (chk_int _); exact I|intros ? _]).
      cbn [partial]. eapply stuck_same; eauto.
  Qed.

  Lemma stuck_dir frame s d :
    stuck s -> In d directions4 ->
    exists s', relax_body_dir (A := ZNum upm) frame g (p_dh_max P) (p_tol P) 0 2 2 0 d (s, []) =
               Ok (s', []) /\ stuck s'.
  Proof.
    intros W Hd. pose proof W as (N1 & N2 & R & V).
    assert (Gs : on_grid s 2 2) by (unfold on_grid; lia).
    assert (Gc : on_grid s (2 + fst d) (2 + snd d) /\ arm (2 + fst d) (2 + snd d) = true).
    { unfold on_grid. cbn [directions4 In] in Hd.
      destruct Hd as [<-|[<-|[<-|[<-|[]]]]]; cbn; split; auto; lia. }
    destruct Gc as [Gc Ac].
    assert (Cc : centre (2 + fst d) (2 + snd d) = false).
    { cbn [directions4 In] in Hd. destruct Hd as [<-|[<-|[<-|[<-|[]]]]]; reflexivity. }
    set (ic := 2 + fst d) in *. set (jc := 2 + snd d) in *.
    assert (Vb : forall k, 0 <= k < 4 ->
      (body s k ic jc : Z) = (if k =? 0 then 40 else if k =? 1 then 50 else 0) /\
      (body_soil s k ic jc : Z) = 0).
    { intros k Hk. destruct (V ic jc Gc) as [_ Q]. destruct (Q k Hk) as [-> ->].
      unfold st_body, st_soil. rewrite Cc, Ac. auto. }
    assert (Vt : (terrain s ic jc : Z) = 40).
    { rewrite (proj1 (V ic jc Gc)). unfold st_terrain. rewrite Ac. auto. }
    assert (V1 : (body s 1 2 2 : Z) = 30) by (apply V; auto; lia).
    assert (S0 : (body_soil s 0 2 2 : Z) = 30) by (apply V; auto; lia).
    assert (S1 : (body_soil s 1 2 2 : Z) = 80) by (apply V; auto; lia).
    assert (Ck : check_unstable_body_cell (A := ZNum upm) (p_tol P) s 2 2 0 ic jc
                   (body_soil s (0 + 1) 2 2 - p_dh_max P) = Some 10).
    { unfold check_unstable_body_cell, body_absent, soil_present. zn.
      change (0 + 1) with 1. change (2 + 1) with 3.
      rewrite (proj1 (Vb 0 ltac:(lia))), (proj1 (Vb 1 ltac:(lia))),
        (proj1 (Vb 2 ltac:(lia))), (proj1 (Vb 3 ltac:(lia))), V1, S1, Vt, Hdh, Htol.
      reflexivity. }
    unfold relax_body_dir. fold ic jc.
    assert (Eg : layer_ok 0 && inb s 2 2 && inb s ic jc = true).
    { apply inb_true in Gs, Gc. rewrite Gs, Gc. reflexivity. }
    rewrite Eg. cbn [guard]. zn. rewrite Ck, R. cbn [nth_error Z.eqb].
    eexists. split; [reflexivity|].
    unfold relax_unstable_body_cell. change (10 mod 10) with 0. change (10 / 10) with 1.
    cbn [Z.eqb fst].
    set (s1 := set_equilibrium s false).
    assert (Es : body_onto_terrain (A := ZNum upm) g (p_dh_max P) (p_tol P) s1 1 0 st_rec 0 2 2 ic jc =
      set_record_h (A := ZNum upm) (set_bs (A := ZNum upm) (set_t (A := ZNum upm) s1 ic jc 40)
        1 2 2 80) 0 st_rec 50).
    { unfold body_onto_terrain, ModelRelax.level, s1. zn. cbn [e_h st_rec Z.eqb Pos.eqb].
      change (0 + 1) with 1.
      cbn [terrain body body_soil set_equilibrium].
      rewrite (proj1 (Vb 0 ltac:(lia))), S0, S1, Vt, Hdh, Htol, Hcz. reflexivity. }
    rewrite Es. unfold stuck. unfold set_record_h, s1.
    split; [exact N1|]. split; [exact N2|].
    split. { cbn [records set_records set_bs set_t set_equilibrium]. rewrite R. reflexivity. }
    intros i j Gij. destruct (V i j Gij) as [T Q]. split.
    - cbn [terrain set_records set_bs set_t set_equilibrium]. unfold upd2.
      destruct (Z.eqb_spec i ic) as [->|]; [|auto].
      destruct (Z.eqb_spec j jc) as [->|]; cbn [andb]; [|auto].
      rewrite <- (proj1 (V ic jc Gc)). auto.
    - intros k Hk. destruct (Q k Hk) as [Q1 Q2]. split; [exact Q1|].
      cbn [body_soil set_records set_bs set_t set_equilibrium]. unfold upd3.
      destruct (Z.eqb_spec k 1) as [->|]; [|auto].
      destruct (Z.eqb_spec i 2) as [->|]; [|auto].
      destruct (Z.eqb_spec j 2) as [->|]; cbn [andb]; auto.
  Qed.

  Lemma stuck_body_soil frame s :
    stuck s ->
    exists s', relax_body_soil (A := ZNum upm) frame g (p_dh_max P) (p_tol P) s = Ok s' /\ stuck s'.
  Proof.
    intros W. pose proof W as (N1 & N2 & R & V).
    unfold relax_body_soil. rewrite R. cbn [length seq for_each].
    unfold relax_body_record. rewrite R. cbn [nth_error e_h st_rec e_i e_j e_ind].
    zn. replace (50 <? p_tol P) with false by (rewrite Htol; reflexivity).
    destruct (shuffle directions4 (rng s)) as [dirs r] eqn:Sh. apply shuffle_eq in Sh.
    assert (L : forall l s, (forall d, In d l -> In d directions4) -> stuck s ->
      exists s', for_each l (relax_body_dir (A := ZNum upm) frame g (p_dh_max P) (p_tol P) 0 2 2 0)
                   (s, []) = Ok (s', []) /\ stuck s').
    { induction l as [|d l IH]; intros s2 Hl W2; cbn [for_each].
      - exists s2. auto.
      - destruct (stuck_dir frame s2 d W2 (Hl d (or_introl eq_refl))) as (s3 & E3 & W3).
        rewrite E3. cbn [bind]. apply IH; auto. intros d' H. apply Hl. right; auto. }
    destruct (L dirs (set_rng s r)) as (s2 & E2 & W2).
    { intros d Hd. eapply Permutation_in; eauto. }
    { eapply stuck_same; eauto. }
    rewrite E2. cbn [bind]. eexists. split; [reflexivity|].
    eapply stuck_same; eauto. cbn [records set_records]. apply app_nil_r.
  Qed.

  Lemma stuck_falls s : stuck s -> exists e d,
    In e (records s) /\ (p_tol P : Z) <= (e_h e : Z) /\ In d directions4 /\
    record_falls (p_dh_max P) (p_tol P) s e (e_i e + fst d) (e_j e + snd d).
  Proof.
    intros (N1 & N2 & R & V). exists st_rec, (1, 0). rewrite R, Htol. cbn [e_h st_rec e_i e_j].
    split; [left; auto|]. split; [lia|]. split; [left; auto|].
    assert (Gs : on_grid s 2 2) by (unfold on_grid; lia).
    assert (Gc : on_grid s 3 2) by (unfold on_grid; lia).
    change (2 + fst (1, 0)) with 3. change (2 + snd (1, 0)) with 2.
    exists 0. cbn [e_ind st_rec e_i e_j]. change (0 + 1) with 1.
    rewrite (proj1 (proj2 (V 2 2 Gs) 1 ltac:(lia))), (proj2 (proj2 (V 2 2 Gs) 1 ltac:(lia))).
    rewrite Hdh. split.
    - left. split; [auto|]. split.
      + intros [_ [H|H]]; apply H; apply (proj2 (V 3 2 Gc)); lia.
      + intros k [-> | ->] H.
        * rewrite (proj1 (proj2 (V 3 2 Gc) 0 ltac:(lia))). cbn. lia.
        * destruct H as [H|H]; exfalso; apply H; apply (proj2 (V 3 2 Gc)); lia.
    - unfold surface. cbn [Z.eqb]. rewrite (proj1 (V 3 2 Gc)). cbn. lia.
  Qed.

  Lemma stuck_round s s1 : stuck s ->
    relax_round (A := ZNum upm) G g P p s = Ok s1 -> stuck s1 /\ equilibrium s1 = false.
  Proof.
    intros W E. pose proof E as E'. unfold relax_round in E'.
    apply bind_ok in E' as (s2 & E2 & E3).
    assert (W2 : stuck s2).
    { refine (partial_ok _ _ _ (stuck_terrain _ (update_impact_area s) _) E2).
      eapply stuck_same; eauto. }
    unfold shuffle_records in E3. rewrite (proj1 (proj2 (proj2 W2))) in E3.
    cbn [shuffle length shuffle_from Nat.sub] in E3.
    assert (W3 : stuck (set_rng (set_records s2 [st_rec]) (rng s2))).
    { eapply stuck_same; eauto. cbn. symmetry. apply W2. }
    destruct (stuck_body_soil (g_frame G p) _ W3) as (s4 & E4 & W4).
    zn. rewrite E4 in E3. injection E3 as <-. split; [auto|].
    destruct (equilibrium s4) eqn:Q; [exfalso|reflexivity].
    destruct (relax_round_rest G g P p s s4 E Q) as ((_ & AR) & _).
    destruct (stuck_falls s4 W4) as (e & d & F1 & F2 & F3 & F4).
    apply (AR e d F1 F2 (proj2 (beside_directions4 d) F3) F4).
  Qed.

  (** Whatever the number of rounds and the random order, nothing moves and the
      relaxation does not report an equilibrium. *)
  Theorem stuck_forever n : forall s,
    loop_ok g G near p s -> stuck s -> equilibrium s = false ->
    exists s', relax_loop (A := ZNum upm) G g P p n s = Ok s' /\
      equilibrium s' = false /\ stuck s'.
  Proof.
    induction n as [|n IH]; intros s L W E; cbn [relax_loop].
    - exists s. auto.
    - rewrite E. pose proof (relax_round_good g G near P HP p s L) as R.
      destruct (relax_round G g P p s) as [s1| |] eqn:E1; cbn [returns bind] in *; [|tauto|tauto].
      destruct R as [L1 _]. destruct (stuck_round s s1 W E1) as [W1 Q1]. apply IH; auto.
  Qed.
End Stuck.
