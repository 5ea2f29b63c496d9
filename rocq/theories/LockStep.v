(** Step in the two runs side by side (see LockBase.v). *)
From Coq Require Import ZArith List Bool Lia Permutation.
From Verif Require Import Outcome Num State ModelRelax ModelIntersect ModelBodySoil
  ModelBodyPos ModelStep Base Spec Spec2 InvBase RelaxBase RelaxTerrainProofs
  RelaxBodyProofs IntersectSoilProofs IntersectTerrainProofs BodySoilProofs BodyPosProofs
  StepFuel StepProofs PropLemmas LockBase LockBound LockRelax LockRelaxLoop LockIntersect
  LockBodyPos LockBodySoil.
Import ListNotations.
Open Scope Z_scope.

(** The same geometry, for the exact run. *)
Definition exact_geom {A} (L : locked A) (G : geom A) : geom (ZNum (exact L)) :=
  mkGeom (ZNum (exact L)) (pose G) (g_moved G) (fun p => fr L (g_frame G p))
    (g_raster G) (fun o p => remap L (g_reloc G o p)).

(** The same parameters; [dz] is the value of [p_dh_max]. *)
Definition exact_params {A} (L : locked A) (P : params A) (dz : Z) : params (ZNum (exact L)) :=
  mkParams (ZNum (exact L)) dz (p_max_iterations P) (p_cell_buffer P) (l_tz L).

Section LockStep.
  Context {A : Num}.
  Variable L : locked A.
  Local Notation N := (ZNum (exact L)).
  Variables Lb T : Z.
  Variables (G : geom A) (g : grid_t A) (g' : grid_t N) (P : params A) (dz : Z).
  Variable legal : pose G -> Prop.
  Variable near : Pos N -> Prop.
  Hypothesis Rg : relg L g g'.
  Hypothesis Htol : p_tol P = l_tA L.
  Hypothesis Hd : W L 1 (p_dh_max P) dz.
  Local Notation G' := (exact_geom L G).
  Local Notation P' := (exact_params L P dz).
  Local Notation lim := (lim (upm := exact L) (l_H L) Lb T (l_K L)).
  Hypothesis Hg : grid_ok g'.
  Hypothesis HP : params_ok g' P'.
  Hypothesis HG : geom_ok g' G' legal near.
  Hypothesis Hok : forall o p x r, legal o -> legal p -> near x ->
    g_reloc G o p x = Ok r -> l_okh L (r_z r).
  Hypothesis Hdeep : forall p ar walls w i j k, legal p -> g_raster G p = Ok (ar, walls) ->
    In w walls -> In (i, j, k) w -> - Lb <= (cell_z g' : Z) * (k - half_z g').

  Lemma dz_pos : 0 <= dz.
  Proof. destruct HP as (_ & _ & H & _). exact H. Qed.

  Lemma lim_set_rng s r h : lim s h -> lim (set_rng s r) h.
  Proof. intros H; exact H. Qed.
  Lemma lim_set_records s l h : lim s h -> lim (set_records s l) h.
  Proof. intros H; exact H. Qed.

  Lemma shuffle_records_lock a s : rel L 1 a s -> rel L 1 (shuffle_records a) (shuffle_records s).
  Proof.
    intros R. unfold shuffle_records. rewrite (rel_rng _ _ _ _ R).
    pose proof (shuffle_rel (relr L 1) _ _ (rng s) (rel_records _ _ _ _ R)) as [S1 S2].
    destruct (shuffle (records a) (rng s)) as [l r].
    destruct (shuffle (records s) (rng s)) as [l' r']. cbn [fst snd] in *. subst r'.
    apply rel_set_rng. apply rel_set_records; auto.
  Qed.

  (** The body goes no deeper than its walls. *)
  Lemma body_deep old p (s : sim N) ar walls :
    0 <= Lb -> legal p -> state_ok g' G' legal near (s, old) ->
    g_raster G p = Ok (ar, walls) -> raster_ok g' ar walls ->
    (forall w i j k, In w walls -> In (i, j, k) w -> near (g_frame G' p i j (vect_z g' k))) ->
    returns (calc_body_pos (A := N) g' (p_tol P') ar walls s)
      (fun s' => (detached g' near s' /\ frame_near near (g_frame G' p) s' /\
         body_covered s' /\ only_body (set_body_area s ar) s') /\
         forall k i j, 0 <= k < 4 -> on_grid s' i j -> - Lb <= (body s' k i j : Z)).
  Proof.
    intros HLb Hp Hw Er Ra Hn.
    pose proof (body_phase_good g' G' legal near P' Hg HP old p s ar walls Hw Er Ra Hn) as H1.
    destruct (calc_body_pos g' (p_tol P') ar walls s) as [s'| |] eqn:E; cbn in H1 |- *; auto.
    split; [auto|]. destruct H1 as (_ & _ & _ & (Dm & _)). destruct Dm as [D1 D2]. cbn in D1, D2.
    destruct Hw as (Hsz & HC & _ & _ & HB & Wb & _). destruct HP as (P1 & _).
    destruct Ra as (Ra & Rn & Rc).
    assert (Hin : forall i j, in_area ar i j -> inside s i j).
    { intros i j. apply area_in_inside. apply (within_grid_in g'); auto. }
    destruct (calc_body_pos_exact g' (p_tol P') ar walls s s') as (_ & _ & _ & X & _); auto.
    - intros i j Hij. apply inside_on_grid.
      apply (area_in_inside s (body_area s)); auto. apply (within_grid_in g'); auto.
    - intros k i j H3 H4 H5. apply (HB k i j); auto.
    - intros w i j k Hwi Hc. destruct (Rc w i j k Hwi Hc). auto.
    - intros k i j Hk Hij.
      assert (Hij' : on_grid s i j) by (unfold on_grid in *; rewrite <- D1, <- D2; auto).
      destruct (Z.eq_dec (body s' k i j) 0) as [E0|Nz]; [rewrite E0; lia|].
      assert (Lk : exists k0, layer k0 /\ (k = k0 \/ k = k0 + 1)).
      { destruct (Z.ltb_spec k 2); [exists 0|exists 2]; unfold layer; lia. }
      destruct Lk as (k0 & Lk & Ek).
      destruct (X k0 i j Hij' Lk) as [(w & n & W1 & W2 & W3) (w' & n' & W1' & W2' & W3')].
      { unfold body_at. destruct Ek; subst k; auto. }
      destruct Hg as (_ & _ & Hcz & Hz).
      destruct Ek; subst k.
      + rewrite W3. pose proof (Hdeep p ar walls w i j n Hp Er W1 W2).
        rewrite Hz by (apply (Rc w i j n); auto). lia.
      + rewrite W3'. pose proof (Hdeep p ar walls w' i j n' Hp Er W1' W2').
        rewrite Hz by (apply (Rc w' i j n'); auto). lia.
  Qed.

  Definition tied_at (p : pose G) (a : sim A) (s : sim N) : Prop :=
    rel L 1 a s /\ lim s 0 /\ loop_ok g' G' near p s.

  Lemma relax_round_both p a s : tied_at p a s ->
    both (tied_at p) (relax_round G g P p a) (relax_round G' g' P' p s).
  Proof.
    intros (R & Hl & Hlo).
    assert (Hgd := relax_round_good g' G' near P' HP p s Hlo).
    enough (HB : both (fun a' s' => rel L 1 a' s' /\ lim s' 0)
      (relax_round G g P p a) (relax_round G' g' P' p s)).
    { destruct HB as (a' & s' & Ea & Es & R' & L'). rewrite Es in Hgd. exists a', s'.
      split; [auto|]. split; [auto|]. split; [auto|]. split; [auto|]. apply Hgd. }
    clear Hgd. destruct Hlo as (Hgood & Hsz & Hb & Hr).
    unfold relax_round. cbv zeta. rewrite Htol.
    set (a0 := update_impact_area a). set (s0 := update_impact_area s).
    assert (R0 : rel L 1 a0 s0).
    { subst a0 s0. unfold update_impact_area. cbv zeta.
      rewrite (rel_body_area _ _ _ _ R), (rel_relax_area _ _ _ _ R).
      apply rel_set_impact_area; auto. }
    assert (Ti : tied L Lb T near (g_frame G p) g' a0 s0).
    { split; [auto|]. split; [|exact Hl].
      apply (good_same near _ (fr L (g_frame G p)) s); [repeat split|exact Hgood]. }
    assert (Hroom : int_room (p_cell_buffer P) s0).
    { destruct HP as (_ & _ & _ & _ & _ & P6 & P7). destruct Hsz as [E1 E2]. unfold int_room. subst s0. cbn.
      rewrite E1, E2. cbn in P6, P7. lia. }
    assert (Hbuf : 0 <= p_cell_buffer P) by (destruct HP as (_ & _ & _ & _ & P5 & _); exact P5).
    assert (Hia : area_in s0 (impact_area s0)).
    { subst s0. unfold area_in in *. cbn. lia. }
    eapply both_bind.
    { apply (relax_terrain_both L Lb T near (g_frame G p) g g' Rg (p_dh_max P) dz Hd dz_pos
        (p_cell_buffer P) a0 s0); auto. }
    cbv beta. intros a1 s1 ((R1 & G1 & L1) & _).
    eapply both_weaken.
    { apply (relax_body_soil_both L Lb T near (g_frame G p) g g' Rg (p_dh_max P) dz Hd dz_pos
        (shuffle_records a1) (shuffle_records s1)).
      split; [apply shuffle_records_lock; auto|].
      unfold shuffle_records. destruct (shuffle (records s1) (rng s1)) as [l r] eqn:E.
      assert (Pm : Permutation (records s1) l).
      { pose proof (shuffle_permutation (records s1) (rng s1)) as Q. rewrite E in Q.
        apply Permutation_sym; auto. }
      split; [|exact L1].
      apply (good_same near _ (fr L (g_frame G p)) s1); [repeat split|].
      eapply good_permutation; eauto. }
    cbv beta. intros a2 s2 ((R2 & _ & L2) & _). auto.
  Qed.

  Lemma relax_loop_both p n : forall a s, tied_at p a s ->
    both (tied_at p) (relax_loop G g P p n a) (relax_loop G' g' P' p n s).
  Proof.
    induction n as [|n IH]; intros a s H; cbn [relax_loop].
    - apply both_ok; auto.
    - rewrite (rel_equilibrium _ _ _ _ (proj1 H)).
      destruct (equilibrium s); [apply both_ok; auto|].
      eapply both_bind; [apply relax_round_both; auto|].
      intros a1 s1 H1. apply IH; auto.
  Qed.

  (** The two states of a sequence of calls. *)
  Definition linked (w : world G) (w' : world G') : Prop :=
    snd w = snd w' /\ rel L 1 (fst w) (fst w') /\ lim (fst w') 0 /\
    roomy L Lb T (fst w') /\ state_ok g' G' legal near w'.

  Lemma step_both fuel p w w' :
    linked w w' -> legal p -> (step_need (fst w') <= fuel)%nat ->
    both (fun r r' => linked (fst r) (fst r') /\ snd r = snd r' /\
            balanced (fst w') (fst (fst r')))
      (step G g P fuel p w) (step G' g' P' fuel p w').
  Proof.
    destruct w as [a old], w' as [s old']. intros (Eo & R & Hl & Hroo & Hw) Hp Hf.
    cbn [fst snd] in *. subst old'.
    assert (Hgd := step_good g' G' legal near P' Hg HP HG fuel p s old Hw Hp Hf).
    enough (HB : both (fun r r' => snd r = snd r' /\ snd (fst r) = snd (fst r') /\
        rel L 1 (fst (fst r)) (fst (fst r')) /\ lim (fst (fst r')) 0 /\
        same_dims s (fst (fst r')))
      (step G g P fuel p (a, old)) (step G' g' P' fuel p (s, old))).
    { destruct HB as (r & [[s1 o1] b1] & Ea & Es & H1 & H2 & H3 & H4 & H5).
      destruct (partial_ok _ _ _ (returns_partial _ _ Hgd) Es) as [H6 H7]. exists r, ((s1, o1), b1).
      cbn [fst snd] in *. do 2 (split; [auto|]).
      split; [|auto]. split; [auto|]. split; [auto|]. split; [auto|]. split; [|auto].
      unfold roomy in *. cbn [fst]. destruct H5 as [-> ->]. exact Hroo. }
    clear Hgd. unfold step.
    change (g_moved G' old p) with (g_moved G old p).
    destruct (g_moved G old p) as [moved farw]. cbv zeta.
    set (a0 := if farw then warn a WLargeMove else a).
    set (s0 := if farw then warn s WLargeMove else s).
    assert (Hw0 : state_ok g' G' legal near (s0, old) /\ rel L 1 a0 s0 /\ lim s0 0 /\
                  roomy L Lb T s0 /\ step_need s0 = step_need s /\ same_dims s s0).
    { subst s0 a0. destruct farw.
      - split; [exact Hw|]. split; [apply rel_warn; auto|]. split; [exact Hl|].
        split; [exact Hroo|]. split; [reflexivity|]. split; reflexivity.
      - split; [exact Hw|]. split; [auto|]. split; [exact Hl|].
        split; [exact Hroo|]. split; [reflexivity|]. split; reflexivity. }
    clearbody s0 a0. destruct Hw0 as (Hw0 & R0 & Hl0 & Hroo0 & Hn0 & Dm0).
    rewrite <- Hn0 in Hf. clear Hn0 Hw R Hl Hroo.
    destruct (negb moved).
    { apply both_ok. cbn. auto. }
    pose proof HG as [HG1 HG2].
    destruct (HG1 p Hp) as (ar & walls & Er & Ra & Hn).
    change (g_raster G' p) with (g_raster G p) in *.
    rewrite Er. cbn [bind].
    pose proof Hw0 as (Hsz & HC & _ & _ & _ & Wb & Wr & Hold).
    destruct HP as (P1 & P2 & _).
    rewrite Htol. cbn [p_tol exact_params].
    eapply both_bind.
    { apply both_intro.
      - apply (calc_body_pos_lock L 1 g g' Rg ar walls a0 s0 R0).
      - apply (body_deep old p s0 ar walls); auto.
        destruct Hl0 as (_ & _ & ((_ & H) & _) & _). exact H. }
    cbv beta. intros a1 s1 (R1 & (HD & Fn & Bc & O) & Dp).
    pose proof O as (Dm1 & _ & Tq1 & Bq1 & Er1 & Ea1 & Ra1 & Ia1 & _ & Wl1).
    cbn in Er1, Ea1, Ra1, Ia1, Wl1.
    assert (T1 : total_soil s1 = total_soil s0).
    { destruct Dm1 as [D1 D2]. unfold total_soil. cbn in D1, D2. rewrite D1, D2.
      apply sum2_ext. intros i j _ _. unfold soil_at, soil_height.
      rewrite Tq1, !Bq1. reflexivity. }
    assert (Sz1 : sized g' s1) by (apply (sized_dims g' s0); auto).
    assert (Hl1 : lim s1 0).
    { destruct Hl0 as (L1 & L2 & L3 & L4). split; [|split; [|split]].
      - intros k i j Hk Hij. split; [apply (rel_b _ _ _ _ R1 k i j Hk Hij)|apply Dp; auto].
      - intros i j Hij. rewrite Tq1. apply L2. destruct Dm1 as [D1 D2]. cbn in D1, D2.
        unfold on_grid in *. rewrite <- D1, <- D2. auto.
      - unfold room in *. destruct Dm1 as [D1 D2]. cbn in D1, D2. rewrite D1, D2. auto.
      - lia. }
    eapply both_bind.
    { apply (update_body_soil_both L g g' Rg (g_reloc G old p) Lb T near a1 s1 R1 Hl1 HD).
      - pose proof HD as (_ & _ & _ & HD4).
        destruct Hold as [Hold|Hold]; [rewrite Er1, Hold; constructor|].
        eapply Forall_impl; [|exact HD4]. intros e (_ & _ & _ & _ & Hx).
        destruct (HG2 old p _ Hold Hp Hx) as (r & Err & X1 & X2).
        unfold target_ok. change (remap L (g_reloc G old p)) with (g_reloc G' old p).
        rewrite Err. cbn. destruct Sz1 as [Z1 Z2]. unfold inside. rewrite Z1, Z2. lia.
      - pose proof HD as (_ & _ & _ & HD4).
        pose proof (rel_records _ _ _ _ R1) as Rr.
        destruct Hold as [Hold|Hold].
        + rewrite Er1, Hold in Rr. inversion Rr; constructor.
        + clear - Rr HD4 Hok Hold Hp. induction Rr as [|e e' la ls He _ IH]; constructor.
          * inversion HD4 as [|? ? (_ & _ & _ & _ & Hx) ?]; subst.
            destruct He as (_ & _ & _ & -> & _). intros r Er.
            eapply Hok; [exact Hold|exact Hp|exact Hx|exact Er].
          * inversion HD4; subst; auto. }
    cbv beta.
    intros a2 s2 (R2 & Hl2 & C2 & Dm2 & Bq2 & Ea2 & Ra2 & Ia2 & _ & T2 & Len2 & _).
    assert (Sz2 : sized g' s2) by (apply (sized_dims g' s1); auto).
    assert (Fn2 : frame_near near (g_frame G' p) s2).
    { eapply frame_near_beq; eauto. }
    assert (Bc2 : body_covered s2).
    { intros k i j Hij Hk Hb. rewrite Ea2. apply (Bc k).
      - destruct Dm2 as [D1 D2]. unfold on_grid in *. rewrite <- D1, <- D2. auto.
      - auto.
      - unfold body_at in *. rewrite !Bq2 in Hb. auto. }
    assert (Ain2 : area_in s2 (body_area s2)).
    { rewrite Ea2, Ea1. apply (within_grid_in g'); [auto|]. apply Ra. }
    assert (Dm02 : same_dims s0 s2).
    { destruct Dm2 as [D1 D2], Dm1 as [D3 D4]. cbn in D3, D4. split; congruence. }
    eapply both_bind.
    { apply (move_intersecting_both L Lb T near (g_frame G p) fuel a2 s2); auto.
      - unfold roomy in *. destruct Dm02 as [-> ->]. auto.
      - split; [|exact Fn2]. rewrite <- (rg_cz _ _ _ Rg). exact C2.
      - unfold step_need in Hf.
        destruct Sz2 as [Z1 Z2], Hsz as [Y1 Y2]. rewrite Z1, Z2. rewrite Y1, Y2 in Hf. lia.
      - unfold step_need in Hf. etransitivity; [|exact Hf].
        etransitivity; [|apply Nat.le_max_r].
        apply records_fuel_le; auto.
        rewrite <- Er1. exact Len2. }
    cbv beta. intros a3 s3 (R3 & Hl3 & G3 & (Dm3 & Bq3 & Ea3 & Ra3 & Ia3) & _).
    assert (Lo : loop_ok g' G' near p (set_equilibrium s3 false)).
    { split; [|split; [|split]].
      - rewrite <- (rg_cz _ _ _ Rg) in G3.
        apply (good_same near _ (fr L (g_frame G p)) s3); [repeat split|exact G3].
      - apply (sized_dims g' s2); auto.
      - unfold area_in in *. cbn. destruct Dm3 as [D1 D2]. rewrite D1, D2, Ea3. auto.
      - cbn. apply (within_grid_in g'); [apply (sized_dims g' s2); auto|].
        rewrite Ra3, Ra2, Ra1. exact Wr. }
    assert (Ti : tied_at p (set_equilibrium a3 false) (set_equilibrium s3 false)).
    { split; [apply rel_set_equilibrium; auto|]. split; [exact Hl3|exact Lo]. }
    eapply both_bind; [apply relax_loop_both; exact Ti|].
    intros a4 s4 (R4 & Hl4 & (_ & Sz4 & _)).
    apply both_ok. cbn [fst snd]. split; [auto|]. split; [auto|]. split; [auto|].
    split; [auto|]. destruct Hsz as [Y1 Y2], Sz4 as [Z1 Z2], Dm0 as [X1 X2].
    split; congruence.
  Qed.

  (** Any sequence of calls. *)
  Theorem run_both ps : forall w w',
    linked w w' -> Forall legal ps ->
    exists w1 w1', (exists fuel0, forall fuel, (fuel0 <= fuel)%nat ->
        run G g P fuel ps w = Ok w1 /\ run G' g' P' fuel ps w' = Ok w1') /\
      linked w1 w1' /\ balanced (fst w') (fst w1').
  Proof.
    induction ps as [|p ps IH]; intros w w' Hw Hps.
    - exists w, w'. split; [|split; [auto|apply balanced_refl]].
      exists 0%nat. intros. auto.
    - inversion Hps as [|? ? Hp Hps']; subst.
      destruct (step_both (step_need (fst w')) p w w' Hw Hp (le_n _))
        as ([w1 b] & [w1' b'] & Ea & Es & Lw & Eb & Hb). cbn [fst snd] in *. subst b'.
      destruct (IH w1 w1' Lw Hps') as (w2 & w2' & (f & Hf) & L2 & B2).
      exists w2, w2'. split; [|split; [auto|eapply balanced_trans; eauto]].
      exists (Nat.max (step_need (fst w')) f). intros fuel Hfu.
      destruct (Hf fuel ltac:(lia)) as [H1 H2].
      cbn [run].
      rewrite (refines_ok _ _ _ (step_fuel G g P (step_need (fst w')) fuel p w ltac:(lia)) Ea).
      rewrite (refines_ok _ _ _ (step_fuel G' g' P' (step_need (fst w')) fuel p w' ltac:(lia)) Es).
      auto.
  Qed.
End LockStep.
