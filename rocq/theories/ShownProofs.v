(** After a call of Step that moved the body, the grid holds the body at its new pose. *)
From Coq Require Import ZArith List Bool Lia.
From Verif Require Import Outcome Num State Base Spec ModelRelax ModelIntersect
  ModelBodySoil ModelBodyPos BodyPosProofs ModelUtils ModelStep StepFuel Spec2 StepProofs StructProofs
  RunProofs PropLemmas InvBase RelaxBase AreaProofs RestProofs SpecShown.
Import ListNotations.
Open Scope Z_scope.

(** The phases after CalcBodyPos, in any arithmetic. *)
Section Any.
  Context {A : Num}.
  Variable G : geom A.
  Variable g : grid_t A.
  Variable P : params A.
  Definition same_body (s s' : sim A) : Prop :=
    nx s' = nx s /\ ny s' = ny s /\ body s' = body s /\ body_area s' = body_area s.
  Lemma same_body_trans s1 s2 s3 : same_body s1 s2 -> same_body s2 s3 -> same_body s1 s3.
  Proof. unfold same_body. intuition congruence. Qed.
  Lemma only_in_same_body S s s' : only_in S s s' -> same_body s s'.
  Proof. intros (A1 & A2 & A3 & A4 & _). repeat split; auto. Qed.

  Lemma relax_round_same_body p s : partial (relax_round G g P p s) (same_body s).
  Proof.
    unfold relax_round. cbv zeta. eapply partial_bind; [apply relax_terrain_only|].
    cbv beta. intros s1 H1. apply only_in_same_body in H1.
    eapply partial_weaken; [apply relax_body_soil_only|]. cbv beta. intros s2 H2.
    apply only_in_same_body in H2.
    eapply same_body_trans; [exact H1|]. eapply same_body_trans; [|exact H2].
    unfold shuffle_records. destruct (shuffle (records s1) (rng s1)). repeat split.
  Qed.
  Lemma relax_loop_same_body p n : forall s, partial (relax_loop G g P p n s) (same_body s).
  Proof.
    induction n as [|n IH]; intros s; cbn [relax_loop]; [repeat split|].
    destruct (equilibrium s); [repeat split|].
    eapply partial_bind; [apply relax_round_same_body|]. cbv beta. intros s1 H1.
    eapply partial_weaken; [apply IH|]. cbv beta. intros s2 H2. eapply same_body_trans; eauto.
  Qed.

  Lemma phases_same_body fuel p old s1 s2 s3 s4 n :
    update_body_soil g (p_tol P) (g_reloc G old p) s1 = Ok s2 ->
    move_intersecting_cells (g_frame G p) (p_tol P) fuel s2 = Ok s3 ->
    relax_loop G g P p n (set_equilibrium s3 false) = Ok s4 ->
    same_body s1 s4.
  Proof.
    intros E2 E3 E4.
    pose proof (update_body_soil_body g (p_tol P) (g_reloc G old p) s1) as H2.
    pose proof (update_body_soil_areas g (p_tol P) (g_reloc G old p) s1) as H2'.
    pose proof (move_intersecting_cells_only (g_frame G p) (p_tol P) fuel s2) as H3.
    pose proof (relax_loop_same_body p n (set_equilibrium s3 false)) as H4.
    rewrite E2 in H2, H2'. rewrite E3 in H3. rewrite E4 in H4. cbn [partial] in *.
    apply only_in_same_body in H3. destruct H2 as (A1 & A2 & A3), H2' as (A4 & _).
    apply (same_body_trans s1 s2); [repeat split; auto|].
    eapply same_body_trans; [exact H3|]. exact H4.
  Qed.
End Any.

Section Shown.
  Context {upm : units}.
  Local Notation sim := (sim (ZNum upm)).
  Variable g : grid_t (ZNum upm).
  Variable G : geom (ZNum upm).
  Variable legal : pose G -> Prop.
  Variable near : Pos (ZNum upm) -> Prop.
  Variable P : params (ZNum upm).
  Hypothesis Hg : grid_ok g.
  Hypothesis HP : params_ok g P.
  Hypothesis HG : geom_ok g G legal near.
  Local Notation ok := (state_ok g G legal near).

  Lemma shows_same_body walls (s s' : sim) : same_body s s' -> shows g walls s -> shows g walls s'.
  Proof.
    intros (A1 & A2 & A3 & _) [S1 S2]. unfold shows, on_grid, body_at in *. rewrite A1, A2, A3.
    split; assumption.
  Qed.

  Lemma calc_body_pos_shows a walls (s s' : sim) old :
    ok (s, old) -> raster_ok g a walls ->
    calc_body_pos (A := ZNum upm) g (p_tol P) a walls s = Ok s' ->
    body_area s' = a /\ shows g walls s'.
  Proof.
    intros (Hsz & HC & TB & SB & HB & Wb & Wr & _) (Ra & Rn & Rc) E.
    assert (In1 : forall a i j, within_grid g a -> in_area a i j -> inside s i j).
    { intros a0 i j Wa. apply area_in_inside. apply (within_grid_in g s a0 Hsz). exact Wa. }
    assert (N : nx s' = nx s /\ ny s' = ny s).
    { pose proof HP as (T & _).
      destruct Hg as (_ & _ & Hcz & Hz).
      pose proof (calc_body_pos_good (p_tol P) T g Hcz Hz (fun _ _ _ => True) (fun _ _ _ => True) a walls s) as Q.
      specialize (Q ltac:(intros i j H; apply inside_on_grid, (In1 _ i j Wb H))
        ltac:(intros k i j H1 H2 H3; apply (HB k i j H1 H2 H3)) Rn).
      assert (C : forall w c, In w walls -> In c w -> cell_in g (fun _ _ _ => True) (fun _ _ _ => True) s c).
      { intros w [[i j] k] H1 H2. destruct (Rc w i j k H1 H2) as [I K].
        split; [apply (In1 a i j Ra I)|]. split; [exact K|]. split; exact Logic.I. }
      specialize (Q C). rewrite E in Q. cbn [returns] in Q. destruct Q as (_ & O & _).
      destruct O as ((N1 & N2) & _). cbn in N1, N2. auto. }
    destruct (calc_body_pos_exact g (p_tol P) a walls s s' Hg (proj1 HP)) as (A1 & A2 & A3 & A4 & _); auto.
    - intros i j H. apply inside_on_grid, (In1 _ i j Wb H).
    - intros k i j H1 H2 H3. apply (HB k i j H1 H2 H3).
    - intros w i j k H1 H2. destruct (Rc w i j k H1 H2) as [I K]. split; [apply (In1 a i j Ra I)|exact K].
    - split; [exact A1|]. split; [|exact A3].
      intros i j k H1. unfold on_grid in H1. rewrite (proj1 N), (proj2 N) in H1. apply A4. exact H1.
  Qed.

  (** A call that moved the body. *)
  Theorem step_shows fuel p (w w' : world G) :
    ok w -> legal p -> step G g P fuel p w = Ok (w', true) -> snd w' = p /\ up_to_date g G w'.
  Proof.
    intros Hw Hp E. destruct w as [s old].
    destruct (step_phases G g P fuel p s old w' E) as (a & walls & s1 & s2 & s3 & Er & E1 & E2 & E3 & E4 & Es).
    split; [exact Es|]. destruct HG as [HR _]. destruct (HR p Hp) as (a' & walls' & Er' & Rok & _).
    rewrite Er in Er'. injection Er' as <- <-.
    assert (Hw0 : ok (if snd (g_moved G old p) then warn s WLargeMove else s, old))
      by (destruct (snd (g_moved G old p)); exact Hw).
    destruct (calc_body_pos_shows _ _ _ _ _ Hw0 Rok E1) as [Ea Sh].
    pose proof (phases_same_body G g P fuel p old s1 s2 s3 (fst w') _ E2 E3 E4) as SB.
    exists a, walls. rewrite Es. split; [exact Er|]. split.
    - destruct SB as (_ & _ & _ & ->). exact Ea.
    - eapply shows_same_body; eauto.
  Qed.

  Theorem step_up_to_date fuel p (w w' : world G) b :
    ok w -> legal p -> step G g P fuel p w = Ok (w', b) -> up_to_date g G w -> up_to_date g G w'.
  Proof.
    intros Hw Hp E U. destruct b; [eapply step_shows; eauto|].
    destruct w as [s old]. unfold step in E.
    destruct (g_moved G old p) as [[|] far]; cbn [negb] in E.
    - repeat (apply bind_ok in E as (? & ? & E); try (destruct x; idtac)). discriminate.
    - injection E as <-. destruct U as (a & walls & U1 & U2 & U3). exists a, walls. cbn [fst snd] in *.
      split; [exact U1|]. destruct far; split; assumption.
  Qed.

  Theorem run_up_to_date fuel ps : forall (w w' : world G),
    ok w -> Forall legal ps -> run G g P fuel ps w = Ok w' -> up_to_date g G w -> up_to_date g G w'.
  Proof.
    induction ps as [|p ps IH]; intros w w' Hw Hp E U; cbn [run] in E.
    - injection E as <-. exact U.
    - inversion Hp; subst. apply bind_ok in E as ([w1 b] & E1 & E).
      eapply (IH w1); eauto; [eapply step_ok; eauto|eapply step_up_to_date; eauto].
  Qed.
End Shown.
