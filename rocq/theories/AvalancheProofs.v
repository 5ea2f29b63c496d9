(** Equilibrium and single avalanches, in terms of the heights only. *)
From Coq Require Import ZArith List Bool Lia Permutation.
From Verif Require Import Outcome Num State Base Spec InvBase ModelRelax RelaxBase
  RelaxTerrainProofs RelaxBodyProofs StructProofs EquilibriumProofs StatusProofs
  ModelBodySoil ModelBodyPos ModelUtils ModelStep.
Import ListNotations.
Open Scope Z_scope.

Section Avalanche.
  Context {upm : units}.
  Local Notation sim := (sim (ZNum upm)).
  Local Notation rec := (rec_t (ZNum upm)).
  Variable frame : Z -> Z -> Z -> Pos (ZNum upm).
  Variable g : grid_t (ZNum upm).
  Variables dh tol : Z.
  Variable cell_buffer : Z.

  (** The terrain column (i, j) can avalanche towards (ic, jc). *)
  Definition terrain_falls (s : sim) (i j ic jc : Z) : Prop :=
    (terrain s ic jc : Z) + tol < (terrain s i j : Z) - dh /\
    exists d1, from_terrain tol s ic jc d1 /\
      surface s ic jc d1 + tol < (terrain s i j : Z) - dh.

  (** The soil of the record can avalanche towards (ic, jc). *)
  Definition record_falls (s : sim) (e : rec) (ic jc : Z) : Prop :=
    exists d1, from_body tol s (body s (e_ind e + 1) (e_i e) (e_j e)) ic jc d1 /\
      surface s ic jc d1 + tol < (body_soil s (e_ind e + 1) (e_i e) (e_j e) : Z) - dh.

  Lemma layers_digit_range (s : sim) i j d0 : layers_digit s i j d0 -> 1 <= d0 <= 4.
  Proof. unfold layers_digit. lia. Qed.

  Lemma from_terrain_range (s : sim) i j d1 : from_terrain tol s i j d1 -> 0 <= d1 <= 4.
  Proof.
    intros [[-> _]|(k & (Hk & _ & H) & _)]; [lia|]. unfold layer in Hk. lia.
  Qed.
  Lemma from_body_range (s : sim) b i j d1 : from_body tol s b i j d1 -> 0 <= d1 <= 4.
  Proof.
    intros [[-> _]|(k & (Hk & _ & H) & _)]; [lia|]. unfold layer in Hk. lia.
  Qed.

  Lemma check_terrain_zero (s : sim) i j ic jc :
    check_unstable_terrain_cell (A := ZNum upm) tol s ic jc ((terrain s i j : Z) - dh) = 0
    <-> ~ terrain_falls s i j ic jc.
  Proof.
    destruct (check_terrain_meaning tol s ic jc ((terrain s i j : Z) - dh))
      as (d0 & d1 & H0 & H1 & ->).
    pose proof (layers_digit_range _ _ _ _ H0). pose proof (from_terrain_range _ _ _ _ H1).
    unfold terrain_falls. zn.
    destruct (Z.ltb_spec (terrain s ic jc + tol) (terrain s i j - dh)) as [Q|Q]; cbn [andb].
    - destruct (Z.ltb_spec (surface s ic jc d1 + tol) (terrain s i j - dh)) as [Q'|Q'].
      + split; [lia|]. intros N. exfalso. apply N. eauto.
      + split; [|auto]. intros _ (_ & d1' & H1' & H2').
        rewrite (from_terrain_unique tol s ic jc d1' d1 H1' H1) in H2'. lia.
    - split; [|auto]. intros _ (Hlow & _). lia.
  Qed.

  Lemma check_body_zero (s : sim) (e : rec) ic jc :
    check_unstable_body_cell (A := ZNum upm) tol s (e_i e) (e_j e) (e_ind e) ic jc
      ((body_soil s (e_ind e + 1) (e_i e) (e_j e) : Z) - dh) = Some 0
    <-> ~ record_falls s e ic jc.
  Proof.
    destruct (check_body_meaning tol s (e_i e) (e_j e) (e_ind e) ic jc
      ((body_soil s (e_ind e + 1) (e_i e) (e_j e) : Z) - dh)) as (d0 & d1 & H0 & H1 & ->).
    pose proof (layers_digit_range _ _ _ _ H0). pose proof (from_body_range _ _ _ _ _ H1).
    unfold record_falls. zn.
    destruct (Z.ltb_spec (surface s ic jc d1 + tol)
      (body_soil s (e_ind e + 1) (e_i e) (e_j e) - dh)) as [Q'|Q'].
    - split; [intros E; inversion E; lia|]. intros N. exfalso. apply N. eauto.
    - split; [|auto]. intros _ (d1' & H1' & H2').
      rewrite (from_body_unique tol s _ ic jc d1' d1 H1' H1) in H2'. lia.
  Qed.

  (** A cell that is not selected cannot avalanche. *)
  Lemma candidate_false (s : sim) i j d :
    unstable_candidate (A := ZNum upm) dh tol s i j = Ok false -> In d directions4 ->
    ~ terrain_falls s i j (i + fst d) (j + snd d).
  Proof.
    unfold unstable_candidate. intros H Hd (F & _). apply guard_ok in H as [_ H].
    inversion H as [E]. clear H. rewrite !orb_false_iff in E. zn. rewrite !Z.ltb_ge in E.
    unfold directions4 in Hd. cbn [In] in Hd.
    destruct Hd as [<-|[<-|[<-|[<-|[]]]]]; cbn [fst snd] in F;
      rewrite ?Z.add_0_r in F;
      try (change (i + -1) with (i - 1) in F); try (change (j + -1) with (j - 1) in F); lia.
  Qed.

  Lemma falls_untouched (s s' : sim) i j ic jc :
    untouched s s' -> terrain_falls s' i j ic jc -> terrain_falls s i j ic jc.
  Proof.
    intros U H. destruct (check_terrain_zero s i j ic jc) as [_ Q].
    destruct (check_terrain_zero s' i j ic jc) as [Q' _].
    assert (E : check_unstable_terrain_cell (A := ZNum upm) tol s' ic jc
      ((terrain s' i j : Z) - dh) =
      check_unstable_terrain_cell (A := ZNum upm) tol s ic jc ((terrain s i j : Z) - dh)).
    { rewrite (check_terrain_untouched (A := ZNum upm) tol s s') by auto.
      destruct U as (_ & _ & -> & _). reflexivity. }
    rewrite E in Q'.
    destruct (Z.eq_dec (check_unstable_terrain_cell (A := ZNum upm) tol s ic jc
      ((terrain s i j : Z) - dh)) 0) as [Z0|N0]; [exfalso; apply Q'; auto|].
    destruct (check_terrain_meaning tol s ic jc ((terrain s i j : Z) - dh))
      as (d0 & d1 & H0 & H1 & Ez). rewrite Ez in N0. zn.
    destruct (Z.ltb_spec (terrain s ic jc + tol) (terrain s i j - dh)); cbn [andb] in N0; [|lia].
    destruct (Z.ltb_spec (surface s ic jc d1 + tol) (terrain s i j - dh)); [|lia].
    split; [auto|]. eauto.
  Qed.

  Lemma record_falls_untouched (s s' : sim) e ic jc :
    untouched s s' -> record_falls s' e ic jc -> record_falls s e ic jc.
  Proof.
    intros U H. destruct (check_body_zero s' e ic jc) as [Q' _].
    destruct (check_body_meaning tol s (e_i e) (e_j e) (e_ind e) ic jc
      ((body_soil s (e_ind e + 1) (e_i e) (e_j e) : Z) - dh)) as (d0 & d1 & H0 & H1 & Ez).
    rewrite (check_body_untouched (A := ZNum upm) tol s s') in Q' by auto.
    destruct U as (_ & _ & _ & _ & U5 & _). rewrite U5 in Q'. rewrite Ez in Q'. zn.
    destruct (Z.ltb_spec (surface s ic jc d1 + tol)
      (body_soil s (e_ind e + 1) (e_i e) (e_j e) - dh)).
    - exists d1. auto.
    - exfalso. apply Q'; auto.
  Qed.

  Theorem relax_terrain_equilibrium (s s' : sim) :
    relax_terrain (A := ZNum upm) frame g dh cell_buffer tol s = Ok s' ->
    equilibrium s' = true ->
    untouched s s' /\
    forall i j d, in_area (impact_area s) i j -> In d directions4 ->
      ~ terrain_falls s' i j (i + fst d) (j + snd d).
  Proof.
    intros E Q.
    pose proof (partial_ok _ _ _ (relax_terrain_quiet (A := ZNum upm) frame g dh tol cell_buffer s) E Q) as [U S].
    split; [auto|]. intros i j d Hij Hd F.
    apply (falls_untouched s s') in F; [|auto].
    destruct (S i j Hij) as [C|C].
    - eapply candidate_false; eauto.
    - specialize (C d Hd). unfold still in C. cbn [fst snd] in C.
      apply check_terrain_zero in C. auto.
  Qed.

  Theorem relax_body_soil_equilibrium (s s' : sim) :
    relax_body_soil (A := ZNum upm) frame g dh tol s = Ok s' ->
    equilibrium s' = true ->
    equilibrium s = true /\ untouched s s' /\
    forall e d, In e (records s') -> tol <= (e_h e : Z) -> In d directions4 ->
      ~ record_falls s' e (e_i e + fst d) (e_j e + snd d).
  Proof.
    intros E Q.
    pose proof (partial_ok _ _ _ (relax_body_soil_quiet (A := ZNum upm) frame g dh tol 0 s) E Q) as (Q0 & U & S).
    split; [auto|]. split; [auto|]. intros e d He Hh Hd F.
    apply (record_falls_untouched s s') in F; [|auto].
    destruct U as (_ & _ & _ & _ & _ & U). rewrite U in He.
    specialize (S e He ltac:(apply Z.ltb_ge; auto) d Hd).
    unfold rec_still in S. apply check_body_zero in S. auto.
  Qed.

  (** ** One avalanche *)

  (** Digit of the surface that is on top once soil arrived on surface [d1]. *)
  Definition covered (d1 : Z) : Z := if d1 =? 2 then 1 else if d1 =? 4 then 3 else d1.

  Variable near : Pos (ZNum upm) -> Prop.
  Local Notation cz := (cell_z g : Z).
  Hypothesis Htol : 0 < tol.
  Hypothesis Hcz : 2 * tol < cz.
  Hypothesis Hdh : 0 <= dh.
  Hypothesis Adh : aligned cz dh.
  Local Notation good := (good near cz frame).

  Lemma column_surface (s : sim) k i j d1 : layer k ->
    (soil_on s k i j /\ d1 = 3 - k \/ ~ soil_on s k i j /\ d1 = 4 - k) ->
    column_top s k i j = surface s i j d1.
  Proof.
    intros Hk H. unfold column_top.
    destruct H as [[H ->]|[H ->]].
    - rewrite (proj2 (soil_present_spec s k i j) H). destruct Hk as [->| ->]; reflexivity.
    - destruct (soil_present s k i j) eqn:E; [apply soil_present_spec in E; contradiction|].
      destruct Hk as [->| ->]; reflexivity.
  Qed.

  Lemma covered_surface (s s' : sim) k i j d1 : layer k ->
    (soil_on s k i j /\ d1 = 3 - k \/ ~ soil_on s k i j /\ d1 = 4 - k) ->
    (body_soil s' (k + 1) i j : Z) = surface s' i j (covered d1).
  Proof. intros [->| ->] [[_ ->]|[_ ->]]; reflexivity. Qed.

  (** One direction of one unstable terrain cell. *)
  Theorem relax_terrain_dir_falls (s s' : sim) i j d :
    good s (records s) -> inside s i j -> In d directions4 ->
    relax_terrain_dir (A := ZNum upm) frame g dh tol i j d s = Ok s' ->
    let ic := i + fst d in
    let jc := j + snd d in
    s' = s /\ ~ terrain_falls s i j ic jc \/
    exists d1, from_terrain tol s ic jc d1 /\
      fall g dh tol s s' i j (surface s ic jc d1) (surface s' ic jc (covered d1)).
  Proof.
    intros Hgood Hin Hd E ic jc. unfold relax_terrain_dir in E. fold ic jc in E. cbv zeta in E.
    apply guard_ok in E as [Eg E]. apply andb_true_iff in Eg as [Gi Gc].
    apply inb_true in Gi, Gc.
    destruct (directions4_neighbour d i j Hd) as (N & _ & _). fold ic jc in N.
    destruct (check_terrain_status near frame g dh tol s ic jc ((terrain s i j : Z) - dh)) as [Z0|St].
    { left. zn. rewrite Z0 in E. cbn [Z.eqb] in E. inversion E; subst.
      split; [auto|]. apply check_terrain_zero; auto. }
    pose proof (check_terrain_zero s i j ic jc) as CZ.
    destruct (check_terrain_meaning tol s ic jc ((terrain s i j : Z) - dh))
      as (d0 & d1 & H0 & H1 & Ez).
    pose proof (from_terrain_range _ _ _ _ H1) as Rd. zn.
    destruct (Z.eqb_spec (check_unstable_terrain_cell (A := ZNum upm) tol s ic jc
        ((terrain s i j : Z) - dh)) 0) as [Z0|N0].
    { left. inversion E; subst. split; [auto|]. apply CZ; auto. }
    right. exists d1. split; [auto|].
    destruct ((terrain s ic jc + tol <? terrain s i j - dh) &&
              (surface s ic jc d1 + tol <? terrain s i j - dh)); [|congruence].
    rewrite Ez in *. set (s1 := set_equilibrium s false) in *.
    assert (G1 : good s1 (records s1)) by (eapply good_same; [|exact Hgood]; repeat split).
    pose proof (relax_unstable_terrain_cell_good near frame g dh tol Htol Hcz Adh s1
      (10 * d0 + d1) i j ic jc G1 Gi Gc N St) as R.
    rewrite E in R. cbn [returns] in R. destruct R as [_ A]. unfold arrival in A.
    destruct (digits d0 d1) as [_ D2]; [lia|]. rewrite D2 in A.
    destruct A as [(-> & F)|(k & Hk & Hb & Hs & F)].
    - exact F.
    - rewrite (column_surface s1 k ic jc d1 Hk Hs) in F.
      rewrite (covered_surface s1 s' k ic jc d1 Hk Hs) in F. exact F.
  Qed.

  (** One direction of one record. *)
  Theorem relax_body_dir_falls (s s' : sim) pend pend' nn (e : rec) d :
    good s (records s ++ pend) -> nth_error (records s) nn = Some e -> In d directions4 ->
    relax_body_dir (A := ZNum upm) frame g dh tol nn (e_i e) (e_j e) (e_ind e) d (s, pend)
      = Ok (s', pend') ->
    let ic := e_i e + fst d in
    let jc := e_j e + snd d in
    (s', pend') = (s, pend) /\ ~ record_falls s e ic jc \/
    exists d1, from_body tol s (body s (e_ind e + 1) (e_i e) (e_j e)) ic jc d1 /\
      drop g dh tol s e s' (surface s ic jc d1) (surface s' ic jc (covered d1)).
  Proof.
    intros Hgood Hnn Hd E ic jc. unfold relax_body_dir in E. fold ic jc in E. cbv zeta in E.
    apply guard_ok in E as [Eg E]. apply andb_true_iff in Eg as [_ Gc].
    apply inb_true in Gc. rewrite Hnn in E.
    destruct (directions4_neighbour d (e_i e) (e_j e) Hd) as (N & _ & _). fold ic jc in N.
    destruct (check_body_status g tol s (e_i e) (e_j e) (e_ind e) ic jc
       ((body_soil s (e_ind e + 1) (e_i e) (e_j e) : Z) - dh)) as (st & Est & Hst).
    destruct (check_body_meaning tol s (e_i e) (e_j e) (e_ind e) ic jc
      ((body_soil s (e_ind e + 1) (e_i e) (e_j e) : Z) - dh)) as (d0 & d1 & H0 & H1 & Ez).
    pose proof (check_body_zero s e ic jc) as CZ.
    pose proof (from_body_range _ _ _ _ _ H1) as Rd. zn.
    rewrite Est in E, Ez, CZ.
    destruct (Z.eqb_spec st 0) as [Z0|N0].
    { left. inversion E; subst. split; [auto|]. apply CZ; auto. }
    destruct Hst as [|Hst]; [tauto|].
    right. exists d1. split; [auto|].
    destruct (surface s ic jc d1 + tol <? body_soil s (e_ind e + 1) (e_i e) (e_j e) - dh);
      [|inversion Ez; congruence].
    inversion Ez as [Ez']. set (s1 := set_equilibrium s false) in *.
    assert (G1 : good s1 (records s1 ++ pend)) by (eapply good_same; [|exact Hgood]; repeat split).
    destruct (relax_unstable_body_cell_good near frame g dh tol Htol Hcz Hdh Adh
      s1 pend nn e ic jc G1 Hnn Gc N st Hst) as [_ A].
    inversion E as [E']. rewrite E' in A. cbn [fst] in A. rewrite Ez' in A.
    destruct (digits d0 d1) as [_ D2]; [lia|]. rewrite D2 in A.
    destruct A as [(-> & F)|(k & Hk & Hb & Hs & F)].
    - exact F.
    - rewrite (column_surface s1 k ic jc d1 Hk Hs) in F.
      rewrite (covered_surface s1 s' k ic jc d1 Hk Hs) in F. exact F.
  Qed.
End Avalanche.

(** ** Rounds and calls of Step that end at equilibrium *)

Section Rest.
  Context {upm : units}.
  Local Notation sim := (sim (ZNum upm)).
  Local Notation rec := (rec_t (ZNum upm)).
  Variable G : geom (ZNum upm).
  Variable g : grid_t (ZNum upm).
  Variable P : params (ZNum upm).
  Local Notation dh := (p_dh_max P : Z).
  Local Notation tol := (p_tol P : Z).

  (** Nothing can avalanche: no terrain column of the impact area, no record. *)
  Definition at_rest (s : sim) : Prop :=
    (forall i j d, in_area (impact_area s) i j -> beside d ->
       ~ terrain_falls dh tol s i j (i + fst d) (j + snd d)) /\
    (forall e d, In e (records s) -> tol <= (e_h e : Z) -> beside d ->
       ~ record_falls dh tol s e (e_i e + fst d) (e_j e + snd d)).

  Theorem relax_round_rest p (s s' : sim) :
    relax_round (A := ZNum upm) G g P p s = Ok s' -> equilibrium s' = true ->
    at_rest s' /\
    terrain s' = terrain s /\ body s' = body s /\ body_soil s' = body_soil s /\
    Permutation (records s') (records s).
  Proof.
    unfold relax_round. intros H Q. apply bind_ok in H as (s1 & H1 & H).
    apply relax_body_soil_equilibrium in H as HB; [|exact Q]. destruct HB as (Q1 & UB & NB).
    pose proof (partial_ok _ _ _ (relax_body_soil_only (A := ZNum upm) (g_frame G p) g dh tol
      (shuffle_records s1)) H) as (_ & _ & _ & _ & IB & _).
    unfold shuffle_records in *.
    destruct (shuffle (records s1) (rng s1)) as [l r] eqn:Sh. apply shuffle_eq in Sh.
    cbn [equilibrium set_rng set_records] in Q1.
    apply relax_terrain_equilibrium in H1 as HT; [|exact Q1]. destruct HT as (UT & NT).
    pose proof (partial_ok _ _ _ (relax_terrain_only (A := ZNum upm) (g_frame G p) g dh tol
      (p_cell_buffer P) (update_impact_area s)) H1) as (_ & _ & _ & _ & IT & _).
    set (s2 := set_rng (set_records s1 l) r) in *.
    split; [split; [|intros e d He Hh Hd; apply beside_directions4 in Hd; auto]|].
    - intros i j d Hij Hd F. apply beside_directions4 in Hd. rewrite IB in Hij.
      change (impact_area s2) with (impact_area s1) in Hij.
      rewrite IT in Hij. apply (NT i j d Hij Hd).
      apply (falls_untouched dh tol s2 s') in F; [|exact UB].
      exact F.
    - destruct UB as (_ & _ & U3 & U4 & U5 & U6).
      destruct UT as (_ & _ & V3 & V4 & V5 & V6).
      rewrite U3, U4, U5, U6. cbn. rewrite V3, V4, V5.
      split; [auto|]. split; [auto|]. split; [auto|].
      rewrite Sh. rewrite V6. reflexivity.
  Qed.

  (** Step: either all rounds were used, or nothing can avalanche any more. *)
  Theorem step_rest fuel p (w w' : world G) :
    step (A := ZNum upm) G g P fuel p w = Ok (w', true) ->
    equilibrium (fst w') = true -> at_rest (fst w').
  Proof.
    destruct w as [s old]. intros H Q.
    destruct (step_moved G g P fuel p s old w' H) as (s1 & k & E1 & _ & R & _).
    clear H. revert E1 Q. induction R as [s2|n s2 s3 s4 E2 H2 R IH]; intros E1 Q; [congruence|].
    destruct (equilibrium s3) eqn:E3.
    - inversion R; subst; [|congruence]. eapply relax_round_rest; eauto.
    - auto.
  Qed.
End Rest.
