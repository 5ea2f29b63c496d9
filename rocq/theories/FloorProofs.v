(** The terrain of an exact run never goes below a floor: the lowest of the initial terrain
    and of the levels of the body. *)
From Coq Require Import ZArith List Bool Lia Permutation.
From Verif Require Import Outcome Num State ModelRelax ModelIntersect ModelBodySoil ModelBodyPos
  ModelStep Base Spec Spec2 InvBase RelaxBase RelaxTerrainProofs RelaxBodyProofs
  IntersectSoilProofs IntersectTerrainProofs BodySoilProofs BodyPosProofs StepProofs StepFuel
  RunProofs LockBound LockIntersect.
Import ListNotations.
Open Scope Z_scope.

Lemma partial_and {A} (m : outcome A) (P Q : A -> Prop) :
  partial m P -> partial m Q -> partial m (fun a => P a /\ Q a).
Proof. destruct m; cbn; auto. Qed.

Lemma round_nonneg h c : 0 < c -> 0 <= h -> 0 <= round_half_away h c.
Proof.
  intros Hc Hh. unfold round_half_away. destruct (Z.leb_spec 0 h); [|lia].
  apply Z.div_pos; lia.
Qed.

Section Floor.
  Context {upm : units}.
  Local Notation sim := (sim (ZNum upm)).
  Local Notation rec := (rec_t (ZNum upm)).
  Variables H Lb T K : Z.
  Local Notation lim := (lim H Lb T K).
  Local Notation floored := (floored Lb).

  Section Relax.
    Variable near : Pos (ZNum upm) -> Prop.
    Variable frame : Z -> Z -> Z -> Pos (ZNum upm).
    Variable g : grid_t (ZNum upm).
    Variables dh tol buffer : Z.
    Local Notation cz := (cell_z g : Z).
    Hypothesis Htol : 0 < tol.
    Hypothesis Hcz : 2 * tol < cz.
    Hypothesis Hdh : 0 <= dh.
    Hypothesis Adh : aligned cz dh.
    Local Notation good := (good near cz frame).

    Lemma relax_terrain_lim (s : sim) :
      good s (records s) -> lim s 0 -> area_in s (impact_area s) ->
      partial (relax_terrain (A := ZNum upm) frame g dh buffer tol s) (fun s' => lim s' 0).
    Proof.
      intros Hgood Hl Hia. unfold relax_terrain.
      set (s0 := set_equilibrium s true).
      assert (SH : same_heights s s0) by (repeat split).
      eapply partial_bind.
      { apply returns_partial. apply (locate_unstable_terrain_cell_in g). intros i j Hij.
        eapply area_in_inside; [|exact Hij]. exact Hia. }
      intros cells Hcells.
      assert (Hcells' : Forall (fun c => inside s0 (fst c) (snd c)) cells).
      { eapply Forall_impl; [|exact Hcells]. intros [i j] Hij.
        eapply area_in_inside; [|exact Hij]. exact Hia. }
      destruct cells as [|c cells0] eqn:Ec; [cbn; exact Hl|].
      rewrite <- Ec in *. clear Hcells Ec c cells0.
      destruct (shuffle cells (rng s0)) as [cells' r] eqn:Sh.
      apply shuffle_eq in Sh.
      eapply partial_bind with (P := fun st : sim * area * list (Z * Z) => let '(s1, box, dirs) := st in
        good s1 (records s1) /\ flows s0 s1 /\ lim s1 0 /\ Permutation dirs directions4).
      - apply for_each_partial.
        + intros [i j] [[s1 box] dirs] Hc (G1 & F1 & L1 & P1). unfold relax_terrain_cell.
          assert (Hin : inside s0 i j).
          { rewrite Forall_forall in Hcells'. apply (Hcells' (i, j)). eapply Permutation_in; eauto. }
          destruct (shuffle dirs (rng s1)) as [dirs' r1] eqn:Sh1. apply shuffle_eq in Sh1.
          assert (P' : Permutation dirs' directions4) by (rewrite Sh1; auto).
          eapply partial_bind with (P := fun s' : sim => good s' (records s') /\ flows s0 s' /\ lim s' 0).
          * apply for_each_partial.
            -- intros d s2 Hd (G2 & F2 & L2). eapply partial_weaken.
               ++ apply returns_partial.
                  apply (relax_terrain_dir_lim H Lb T K near frame g dh tol Htol Hcz Hdh Adh s2 i j d); auto.
                  ** eapply flows_inside; eauto.
                  ** eapply Permutation_in; eauto.
               ++ cbn. intros s3 (G3 & F3 & L3). split; [auto|]. split; [eapply flows_trans; eauto|auto].
            -- split; [eapply good_same; [|exact G1]; repeat split|].
               split; [eapply flows_trans; [exact F1|]; repeat split|exact L1].
          * intros s' (G' & F' & L'). cbn. auto.
        + split; [eapply good_same; [|exact Hgood]; repeat split|].
          split; [repeat split|]. split; [exact Hl|auto].
      - intros [[s1 box] dirs] (G1 & F1 & L1 & _).
        do 4 (eapply partial_bind with (P := fun _ => True); [unfold chk_int; destruct (int_ok _); exact I|intros ? _]).
        exact L1.
    Qed.

    Lemma relax_body_soil_lim (s : sim) :
      good s (records s) -> lim s 0 ->
      partial (relax_body_soil (A := ZNum upm) frame g dh tol s) (fun s' => lim s' 0).
    Proof.
      intros G Hl. unfold relax_body_soil.
      eapply partial_bind with (P := fun st : sim * list rec * list (Z * Z) =>
        body_loop3 near frame g s st /\ lim (fst (fst st)) 0).
      - apply for_each_partial.
        + intros nn [[s1 pend] dirs] Hnn ((L1 & P1) & M1). cbn [fst] in M1. apply in_seq in Hnn.
          unfold relax_body_record.
          destruct (nth_error (records s) nn) as [e0|] eqn:E0;
            [|apply nth_error_None in E0; lia].
          pose proof L1 as (G1 & F1 & K1).
          destruct (keys_nth _ _ _ _ K1 E0) as (e & He & E1 & E2 & E3). rewrite He.
          zn. destruct (e_h e <? tol); [cbn; split; [split|]; auto|].
          destruct (shuffle dirs (rng s1)) as [dirs' r] eqn:Sh. apply shuffle_eq in Sh.
          assert (P' : Permutation dirs' directions4) by (rewrite Sh; auto).
          rewrite E1, E2, E3.
          eapply partial_bind with (P := fun st => body_loop near frame g s st /\ lim (fst st) 0).
          * apply for_each_partial.
            -- intros d st1 Hd (L2 & M2). apply returns_partial.
               apply (relax_body_dir_lim H Lb T K near frame g dh tol Htol Hcz Hdh Adh); auto.
               eapply Permutation_in; eauto.
            -- split; [|exact M1]. split; [eapply good_same; [|exact G1]; repeat split|].
               split; [eapply flows_trans; [exact F1|]; repeat split|exact K1].
          * intros [s2 pend2] (L2 & M2). cbn. split; [split|]; auto.
        + split; [|exact Hl]. split; auto. split; [rewrite app_nil_r; auto|].
          split; [apply flows_refl|auto].
      - intros [[s1 pend] dirs] (_ & M). exact M.
    Qed.
  End Relax.

  (** ** Moving the soil that is in the body *)
  Section Intersect.
    Variable frame : Z -> Z -> Z -> Pos (ZNum upm).
    Variable tol : Z.
    Hypothesis Htol : 0 < tol.

    Lemma explore_raised i j d fuel : forall (s : sim) (w : walk (A := ZNum upm)) (mx : Z) pp,
      partial (explore (A := ZNum upm) frame tol fuel s w mx i j d pp) (fun p => raised s (fst p)).
    Proof.
      induction fuel as [|fuel IH]; intros s w mx pp; cbn [explore]; zn.
      - destruct (negb (w_wall w) && (tol <? w_h w)); cbn; auto. apply raised_refl.
      - destruct (negb (w_wall w) && (tol <? w_h w)) eqn:E; [|cbn; apply raised_refl].
        apply andb_prop in E as [_ E]. apply Z.ltb_lt in E.
        eapply partial_bind; [apply move_body_soil_raised; lia|].
        intros [s1 w1] R1. cbn [fst] in R1. apply partial_guard. intros _.
        eapply partial_weaken; [apply IH|]. cbv beta. intros p R2. eapply raised_trans; eauto.
    Qed.

    Lemma explore_all_raised ind ind_t i j fuel dirs : forall (s : sim) (h : Z),
      partial (explore_all (A := ZNum upm) frame tol fuel dirs s ind ind_t i j h) (fun p => raised s (fst p)).
    Proof.
      induction dirs as [|d dirs IH]; intros s h; cbn [explore_all]; [cbn; apply raised_refl|].
      eapply partial_bind; [apply explore_raised|].
      intros [s1 w1] R1. cbn [fst] in R1. destruct (fltb _ _); [exact R1|].
      eapply partial_weaken; [apply IH|]. cbv beta. intros p R2. eapply raised_trans; eauto.
    Qed.

    Lemma move_record_raised fuel nn e (s : sim) dirs :
      partial (move_record (A := ZNum upm) frame tol fuel nn e s dirs) (fun p => raised s (fst p)).
    Proof.
      unfold move_record. cbv zeta. apply partial_guard. intros _.
      destruct (body_absent _ _ _ _); [cbn; apply raised_refl|].
      match goal with |- context [if ?c then _ else _] => destruct c end; [|cbn; apply raised_refl].
      match goal with |- context [let '(h, s) := ?p in _] => set (q := p) end.
      assert (Q : raised s (snd q)).
      { unfold q. destruct (fltb _ _); apply raised_same; reflexivity. }
      destruct q as [h s1]. cbn [snd] in Q.
      destruct (shuffle dirs _) as [dirs' r].
      eapply partial_bind; [apply explore_all_raised|].
      intros [s2 h2] R2. cbn [fst] in R2.
      assert (R3 : raised s s2).
      { eapply raised_trans; [exact Q|]. eapply raised_trans; [|exact R2]. apply raised_same; reflexivity. }
      cbn. destruct (_ <? _); [|exact R3].
      eapply raised_trans; [exact R3|]. apply raised_same; reflexivity.
    Qed.

    Lemma move_records_raised wf fuel : forall nn (s : sim) dirs,
      partial (move_records (A := ZNum upm) frame tol fuel wf nn s dirs) (raised s).
    Proof.
      induction fuel as [|fuel IH]; intros nn s dirs; cbn [move_records];
        (destruct (nth_error (records s) nn); [|cbn; apply raised_refl]); [exact I|].
      eapply partial_bind; [apply move_record_raised|].
      intros [s1 d1] R1. cbn [fst] in R1.
      eapply partial_weaken; [apply IH|]. cbv beta. intros s2 R2. eapply raised_trans; eauto.
    Qed.

    Lemma spread_ring_raised i j pp dirs : forall (s : sim) (h : Z), 0 <= h ->
      partial (spread_ring (A := ZNum upm) tol dirs s i j pp h)
        (fun p => (raised s (fst p) /\ 0 <= (snd p : Z)) /\ beq s (fst p)).
    Proof.
      induction dirs as [|d dirs IH]; intros s h Hh; cbn [spread_ring].
      { cbn. split; [split; [apply raised_refl|auto]|intros k a b; auto]. }
      apply partial_guard. intros _. zn.
      assert (Up : forall a b, raised s (set_t (A := ZNum upm) s a b ((terrain s a b : Z) + h))).
      { intros a b. apply set_t_raised. intros _. lia. }
      destruct (body_absent s 0 _ _ && body_absent s 2 _ _).
      { cbn. split; [split; [apply Up|lia]|intros k a b; auto]. }
      match goal with |- context [if _ <? ?b then _ else _] => set (bot := b) end.
      match goal with |- context [if ?c then _ else _] => destruct c eqn:E1 end; [|apply IH; auto].
      apply Z.ltb_lt in E1.
      match goal with |- context [if ?c then _ else _] => destruct c eqn:E2 end.
      - apply Z.ltb_lt in E2. eapply partial_weaken; [apply IH; lia|].
        cbv beta. intros p ((R & R0) & Rb). split; [split; [|auto]|exact Rb].
        eapply raised_trans; [|exact R]. apply set_t_raised. intros _. lia.
      - cbn. split; [split; [apply Up|lia]|intros k a b; auto].
    Qed.

    Lemma spread_raised i j dirs fuel : forall (s : sim) pp (h : Z),
      partial (spread (A := ZNum upm) tol fuel dirs s i j pp h) (fun s' => raised s s' /\ beq s s').
    Proof.
      induction fuel as [|fuel IH]; intros s pp h; cbn [spread]; zn;
        (destruct (tol <? h) eqn:E; [|cbn; split; [apply raised_refl|intros k a b; auto]]);
        [exact I|].
      apply Z.ltb_lt in E.
      eapply partial_bind; [apply spread_ring_raised; lia|].
      intros [s1 h1] ((R1 & _) & B1). cbn [fst] in *.
      eapply partial_weaken; [apply IH|]. cbv beta. intros s2 (R2 & B2).
      split; [eapply raised_trans; eauto|]. intros k a b. rewrite B2. apply B1.
    Qed.

    (** The bottoms of the body are above the floor. *)
    Definition deep (s : sim) : Prop :=
      forall k i j, layer k -> on_grid s i j -> - Lb <= (body s k i j : Z).

    Lemma move_terrain_cell_floored fuel (c : Z * Z * Z) (s : sim) dirs :
      layer (fst (fst c)) -> on_grid s (snd (fst c)) (snd c) -> deep s -> floored s ->
      partial (move_terrain_cell (A := ZNum upm) tol fuel c (s, dirs))
        (fun p => floored (fst p) /\ same_dims s (fst p) /\ beq s (fst p)).
    Proof.
      destruct c as [[ind i] j]. cbn [fst snd]. intros Hk Hg Hd Hf. unfold move_terrain_cell.
      destruct (fltb _ _); [cbn; split; [auto|split; [split; reflexivity|intros k a b; auto]]|].
      destruct (shuffle dirs (rng s)) as [dirs' r].
      eapply partial_bind; [apply spread_raised|].
      intros s1 (R1 & B1). cbn [partial fst].
      pose proof R1 as ((E1 & E2) & _). cbn in E1, E2.
      assert (F1 : floored s1) by (eapply raised_floored; [exact R1|exact Hf]).
      split; [|split; [split; assumption|exact B1]].
      intros i' j' Hg'. upds. destruct (Z.eqb_spec i' i), (Z.eqb_spec j' j); cbn [andb]; subst;
        try (apply F1; exact Hg').
      rewrite B1. cbn [set_rng body]. apply Hd; auto.
    Qed.

    Lemma locate_intersecting_in (s : sim) :
      partial (locate_intersecting_cells (A := ZNum upm) tol s)
        (Forall (fun c => layer (fst (fst c)) /\ on_grid s (snd (fst c)) (snd c))).
    Proof.
      unfold locate_intersecting_cells. apply for_each_partial; [|constructor].
      intros [i j] acc _ Ha. apply partial_guard. intros Hi. apply inb_true in Hi. cbn [partial].
      assert (A1 : forall k (b : bool) l, layer k ->
        Forall (fun c : Z * Z * Z => layer (fst (fst c)) /\ on_grid s (snd (fst c)) (snd c)) l ->
        Forall (fun c => layer (fst (fst c)) /\ on_grid s (snd (fst c)) (snd c))
          (if b then l ++ [(k, i, j)] else l)).
      { intros k b l Hk Hl. destruct b; [|auto]. apply Forall_app. split; [auto|].
        constructor; [cbn; auto|constructor]. }
      apply A1; [right; reflexivity|]. apply A1; [left; reflexivity|exact Ha].
    Qed.

    Lemma move_intersecting_body_floored fuel (s : sim) : deep s -> floored s ->
      partial (move_intersecting_body (A := ZNum upm) tol fuel s) floored.
    Proof.
      intros Hd Hf. unfold move_intersecting_body.
      eapply partial_bind; [apply locate_intersecting_in|]. cbv beta. intros cells Hc.
      eapply partial_bind with (P := fun p : sim * list (Z * Z) =>
        floored (fst p) /\ same_dims s (fst p) /\ beq s (fst p)).
      - apply for_each_partial.
        + intros c [s1 dirs] Hin (F1 & (D1 & D2) & B1). cbn [fst] in *.
          rewrite Forall_forall in Hc. destruct (Hc c Hin) as [Hk Hg].
          assert (Hg1 : on_grid s1 (snd (fst c)) (snd c)) by (unfold on_grid in *; rewrite D1, D2; auto).
          assert (Hd1 : deep s1).
          { intros k i j Hk' Hg'. rewrite B1. apply Hd; auto.
            unfold on_grid in *. rewrite <- D1, <- D2. auto. }
          eapply partial_weaken; [exact (move_terrain_cell_floored fuel c s1 dirs Hk Hg1 Hd1 F1)|].
          cbv beta. intros p (F2 & (D3 & D4) & B2). split; [auto|].
          split; [split; congruence|]. intros k i j. rewrite B2. apply B1.
        + cbn. split; [auto|]. split; [split; reflexivity|intros k i j; auto].
      - intros [s1 dirs] (F1 & _). exact F1.
    Qed.
  End Intersect.

  Lemma move_intersecting_cells_floored near cz frame tol fuel (s : sim) :
    0 < tol -> 2 * tol < cz -> ready near cz frame s ->
    nx s + ny s <= Z.of_nat fuel -> (records_fuel s (length (records s)) <= fuel)%nat ->
    deep s -> floored s ->
    partial (move_intersecting_cells (A := ZNum upm) frame tol fuel s) floored.
  Proof.
    intros Ht Hc R Hf1 Hf2 Hd Hf. unfold move_intersecting_cells.
    eapply partial_bind.
    - apply partial_and.
      + apply returns_partial. apply (move_intersecting_body_soil_good near cz frame tol Ht Hc fuel s R Hf1 Hf2).
      + apply move_records_raised. exact Ht.
    - cbv beta. intros s1 ((_ & (Dm & B1 & _) & _) & R1).
      apply move_intersecting_body_floored; [exact Ht| |].
      + intros k i j Hk Hg. rewrite B1. apply Hd; auto.
        destruct Dm as [E1 E2]. unfold on_grid in *. rewrite <- E1, <- E2. auto.
      + eapply raised_floored; eauto.
  Qed.

  (** ** Moving the soil that is on the body *)
  Lemma update_body_soil_raised (g : grid_t (ZNum upm)) tol reloc (s : sim) :
    0 < cell_z g -> Forall (fun e : rec => 0 <= (e_h e : Z)) (records s) ->
    partial (update_body_soil (A := ZNum upm) g tol reloc s) (raised s).
  Proof.
    intros Hcz He. unfold update_body_soil.
    eapply partial_bind with (P := fun s1 : sim => raised s s1).
    - apply for_each_partial; [|apply raised_refl].
      intros e s1 _ R1. apply partial_guard. intros _. cbn [partial].
      eapply raised_trans; [exact R1|]. apply raised_same; reflexivity.
    - intros s1 R1. apply for_each_partial.
      + intros e s2 Hin R2. rewrite Forall_forall in He. specialize (He e Hin).
        eapply partial_weaken with (P := raised s2); [|intros s3 R3; eapply raised_trans; eauto].
        unfold update_record. destruct (f_below _ _); [cbn; apply raised_refl|].
        assert (E : 0 <= (f_snap (n := ZNum upm) (e_h e) (cell_z g) : Z)).
        { cbn. apply Z.mul_nonneg_nonneg; [cbn in *; lia|]. apply round_nonneg; cbn in *; lia. }
        set (h := f_snap (e_h e) (cell_z g)) in *. cbv zeta.
        destruct (reloc (e_pos e)) as [r| |]; cbn [bind]; try exact I.
        destruct (find_wall (A := ZNum upm) g tol s2 r _ _) as [[hit b]| |]; cbn [bind]; try exact I.
        destruct hit as [[[i j] k]|]; [apply raised_same; reflexivity|].
        destruct (negb _).
        * destruct (fst b) as [[[i j] k]|]; [|exact I]. apply raised_same; reflexivity.
        * apply partial_guard. intros _. cbn [partial].
          eapply raised_trans; [|apply raised_same; reflexivity].
          apply (set_t_raised s2). intros _.
          change ((terrain s2 (r_i r) (r_j r) : Z) <= terrain s2 (r_i r) (r_j r) + h). lia.
      + eapply raised_trans; [exact R1|]. apply raised_same; reflexivity.
  Qed.
End Floor.

(** ** Step *)
Section FloorStep.
  Context {upm : units}.
  Local Notation sim := (sim (ZNum upm)).
  Variable g : grid_t (ZNum upm).
  Variable G : geom (ZNum upm).
  Variable legal : pose G -> Prop.
  Variable near : Pos (ZNum upm) -> Prop.
  Variable P : params (ZNum upm).
  Hypothesis Hg : grid_ok g.
  Hypothesis HP : params_ok g P.
  Hypothesis HG : geom_ok g G legal near.
  Variable Lb : Z.
  Hypothesis Hhz : 0 <= half_z g.
  Hypothesis Hlow : (cell_z g : Z) * half_z g <= Lb.
  Local Notation floored := (floored Lb).
  Local Notation cz := (cell_z g : Z).

  (** The levels of the body. *)
  Lemma body_capped old p (s : sim) a walls :
    state_ok g G legal near (s, old) -> g_raster G p = Ok (a, walls) -> raster_ok g a walls ->
    partial (calc_body_pos (A := ZNum upm) g (p_tol P) a walls s) (fun s' =>
      forall k i j, 0 <= k < 4 -> on_grid s' i j -> Z.abs (body s' k i j : Z) <= cz * (half_z g + 1) /\
        - Lb <= (body s' k i j : Z)).
  Proof.
    intros (Hsz & HC & TB & SB & HB & Wb & Wr & _) Er (Ra & Rn & Rc).
    destruct HP as (P1 & P2 & _). destruct Hg as (G1 & G2 & G3 & Hz).
    pose (in_levels := fun (_ _ : Z) (b : Z) => Z.abs b <= cz * (half_z g + 1) /\ - Lb <= b).
    assert (Hin : forall i j, in_area a i j -> inside s i j).
    { intros i j. apply area_in_inside. apply (within_grid_in g); auto. }
    apply returns_partial. eapply returns_weaken.
    { apply (calc_body_pos_good (p_tol P) P1 g G3 Hz in_levels in_levels a walls s).
      - intros i j Hij. apply inside_on_grid.
        apply (area_in_inside s (body_area s)); auto. apply (within_grid_in g); auto.
      - intros k i j H3 H4 H5. apply (HB k i j); auto.
      - exact Rn.
      - intros w [[i j] k] Hw Hc. destruct (Rc w i j k Hw Hc) as [R1 R2].
        split; [apply Hin; auto|]. split; [auto|].
        rewrite (z_bot_eq g Hz), (z_top_eq g Hz) by auto.
        split; unfold in_levels; nia. }
    cbv beta. intros s' (Bok & O & _ & _) k i j Hk Hij.
    destruct (Bok i j Hij) as [_ B].
    destruct (Z.eq_dec (body s' k i j) 0) as [->|Nz]; [cbn; nia|].
    assert (L : exists k0, layer k0 /\ (k = k0 \/ k = k0 + 1)).
    { destruct (Z.ltb_spec k 2); [exists 0|exists 2]; unfold layer; lia. }
    destruct L as (k0 & Lk & Ek).
    destruct (B k0 Lk) as (_ & W1 & W2).
    { unfold body_at. destruct Ek; subst k; auto. }
    destruct Ek; subst k; [exact W1|exact W2].
  Qed.

  Section Loop.
    Variables H T K : Z.
    Local Notation lim := (lim H Lb T K).

    Lemma relax_round_lim p (s : sim) :
      loop_ok g G near p s -> lim s 0 -> partial (relax_round G g P p s) (fun s' => lim s' 0).
    Proof.
      intros (Hgood & Hsz & Hb & Hr) Hl.
      destruct HP as (P1 & P2 & P3 & P4 & P5 & P6 & P7).
      unfold relax_round. cbv zeta.
      set (s0 := update_impact_area s).
      assert (Hgood0 : good near cz (g_frame G p) s0 (records s0)).
      { apply (good_same near cz (g_frame G p) s); [repeat split|exact Hgood]. }
      assert (Hia : area_in s0 (impact_area s0)).
      { subst s0. unfold area_in in *. cbn. lia. }
      assert (Hroom : int_room (p_cell_buffer P) s0).
      { destruct Hsz as [E1 E2]. unfold int_room. subst s0. cbn. rewrite E1, E2. lia. }
      eapply partial_bind.
      { apply partial_and.
        - apply returns_partial. apply (relax_terrain_good near (g_frame G p) g (p_dh_max P) (p_tol P)); auto.
        - apply (relax_terrain_lim H Lb T K near (g_frame G p) g (p_dh_max P) (p_tol P) (p_cell_buffer P)); auto. }
      cbv beta. intros s1 ((G1 & F1 & E1 & A1) & L1).
      set (s2 := shuffle_records s1).
      assert (S2 : good near cz (g_frame G p) s2 (records s2) /\ lim s2 0).
      { subst s2. unfold shuffle_records.
        destruct (shuffle (records s1) (rng s1)) as [l r] eqn:E.
        assert (Pm : Permutation (records s1) l).
        { pose proof (shuffle_permutation (records s1) (rng s1)) as Q. rewrite E in Q.
          apply Permutation_sym; auto. }
        split; [|exact L1]. cbn [records set_rng set_records].
        apply (good_same near cz (g_frame G p) s1); [repeat split|].
        eapply good_permutation; eauto. }
      apply (relax_body_soil_lim H Lb T K near (g_frame G p) g (p_dh_max P) (p_tol P)); auto; apply S2.
    Qed.

    Lemma relax_loop_lim p n : forall (s : sim),
      loop_ok g G near p s -> lim s 0 -> partial (relax_loop G g P p n s) (fun s' => lim s' 0).
    Proof.
      induction n as [|n IH]; intros s Hs Hl; cbn [relax_loop]; [exact Hl|].
      destruct (equilibrium s); [exact Hl|].
      eapply partial_bind.
      { apply partial_and; [apply returns_partial, (relax_round_good g G near P HP p); exact Hs|].
        apply relax_round_lim; auto. }
      cbv beta. intros s1 ((L1 & _) & M1). apply IH; auto.
    Qed.
  End Loop.

  Lemma step_floored_need fuel p (s : sim) old :
    state_ok g G legal near (s, old) -> legal p -> (step_need s <= fuel)%nat -> floored s ->
    partial (step G g P fuel p (s, old)) (fun r => floored (fst (fst r))).
  Proof.
    intros Hw Hp Hf Hfl. unfold step.
    destruct (g_moved G old p) as [moved farw]. cbv zeta.
    set (s0 := if farw then warn s WLargeMove else s).
    assert (Hw0 : state_ok g G legal near (s0, old) /\ floored s0 /\ step_need s0 = step_need s).
    { subst s0. destruct farw; split; [exact Hw|split; [exact Hfl|reflexivity]|exact Hw|split; [exact Hfl|reflexivity]]. }
    clearbody s0. destruct Hw0 as (Hw0 & Hfl0 & Hn0).
    rewrite <- Hn0 in Hf. clear Hn0.
    destruct (negb moved); [exact Hfl0|].
    pose proof HG as [HG1 HG2].
    destruct (HG1 p Hp) as (a & walls & Er & Ra & Hn).
    rewrite Er. cbn [bind].
    pose proof Hw0 as (Hsz & HC & _ & _ & _ & Wb & Wr & Hold).
    pose proof HP as (P1 & P2 & _). pose proof Hg as (Hx & Hy & Hz & _).
    eapply partial_bind.
    { apply partial_and; [apply returns_partial, (body_phase_good g G legal near P Hg HP old p s0 a walls); auto|].
      apply (body_capped old p s0 a walls); auto. }
    cbv beta. intros s1 ((HD & Fn & Bc & O) & Cap1).
    pose proof O as (Dm1 & _ & Tq1 & Bq1 & Er1 & Ea1 & Ra1 & Ia1 & _ & Wl1).
    cbn in Er1, Ea1, Ra1, Ia1, Wl1.
    assert (Sz1 : sized g s1) by (apply (sized_dims g s0); auto).
    assert (Fl1 : floored s1).
    { intros i j Hij. rewrite Tq1. apply Hfl0. destruct Dm1 as [D1 D2]. cbn in D1, D2.
      unfold on_grid in *. rewrite <- D1, <- D2. auto. }
    eapply partial_bind.
    { apply partial_and.
      - apply returns_partial, (update_body_soil_good g (p_tol P) near (g_reloc G old p) P1 P2 s1 HD).
        pose proof HD as (_ & _ & _ & HD4).
        destruct Hold as [Hold|Hold]; [rewrite Er1, Hold; constructor|].
        eapply Forall_impl; [|exact HD4]. intros e (_ & _ & _ & _ & He).
        destruct (HG2 old p _ Hold Hp He) as (r & Err & R1 & R2).
        unfold target_ok. rewrite Err. cbn.
        destruct Sz1 as [Z1 Z2]. unfold inside. rewrite Z1, Z2. lia.
      - apply update_body_soil_raised; [exact Hz|].
        eapply Forall_impl; [|apply HD]. intros e (_ & _ & He & _). exact He. }
    cbv beta. intros s2 ((C2 & Dm2 & Bq2 & Ea2 & Ra2 & Ia2 & _ & T2 & Len2 & n2 & Wl2) & R2).
    assert (Fl2 : floored s2) by (eapply raised_floored; eauto).
    assert (Sz2 : sized g s2) by (apply (sized_dims g s1); auto).
    assert (Fn2 : frame_near near (g_frame G p) s2) by (eapply frame_near_beq; eauto).
    assert (Bc2 : body_covered s2).
    { intros k i j Hij Hk Hb. rewrite Ea2. apply (Bc k).
      - destruct Dm2 as [D1 D2]. unfold on_grid in *. rewrite <- D1, <- D2. auto.
      - auto.
      - unfold body_at in *. rewrite !Bq2 in Hb. auto. }
    assert (Ain2 : area_in s2 (body_area s2)).
    { rewrite Ea2, Ea1. apply (within_grid_in g); [auto|]. apply Ra. }
    assert (Rd2 : ready near cz (g_frame G p) s2) by (split; auto).
    assert (Fu1 : nx s2 + ny s2 <= Z.of_nat fuel).
    { unfold step_need in Hf. destruct Sz2 as [Z1 Z2], Hsz as [Y1 Y2]. rewrite Z1, Z2.
      rewrite Y1, Y2 in Hf. lia. }
    assert (Fu2 : (records_fuel s2 (length (records s2)) <= fuel)%nat).
    { unfold step_need in Hf. etransitivity; [|exact Hf].
      etransitivity; [|apply Nat.le_max_r].
      apply records_fuel_le.
      + destruct Dm2 as [D1 D2], Dm1 as [D3 D4]. cbn in D3, D4. split; congruence.
      + rewrite <- Er1. exact Len2. }
    eapply partial_bind.
    { apply partial_and.
      - apply returns_partial, (move_intersecting_cells_good near cz (g_frame G p) (p_tol P) P1 P2); auto.
      - apply (move_intersecting_cells_floored Lb near cz (g_frame G p) (p_tol P)); auto.
        intros k i j Hk Hij. rewrite Bq2. apply Cap1.
        + destruct Hk as [->| ->]; lia.
        + destruct Dm2 as [D1 D2]. unfold on_grid in *. rewrite <- D1, <- D2. auto. }
    cbv beta. intros s3 ((G3 & (Dm3 & Bq3 & Ea3 & Ra3 & Ia3) & L3) & Fl3).
    set (s4 := set_equilibrium s3 false).
    set (T := Z.max 0 (total_soil s3)).
    set (H := cz * (half_z g + 1)).
    assert (Lim : lim H Lb T (H + Lb + T + nx s4 * ny s4 * Lb) s4 0).
    { split; [|split; [exact Fl3|split]].
      - intros k i j Hk Hij. change (body s4 k i j) with (body s3 k i j). rewrite Bq3, Bq2.
        apply Cap1; [lia|].
        destruct Dm3 as [D1 D2], Dm2 as [D3 D4]. unfold on_grid in *.
        rewrite <- D3, <- D4, <- D1, <- D2. exact Hij.
      - split; [split; unfold H; nia|]. split; unfold T; lia.
      - change (total_soil s4) with (total_soil s3). unfold T. lia. }
    eapply partial_bind.
    { apply (relax_loop_lim H T (H + Lb + T + nx s4 * ny s4 * Lb) p); [|exact Lim].
      split; [|split; [|split]].
      - apply (good_same near cz (g_frame G p) s3); [repeat split|exact G3].
      - apply (sized_dims g s2); auto.
      - unfold area_in in *. cbn. destruct Dm3 as [D1 D2]. rewrite D1, D2, Ea3. auto.
      - cbn. apply (within_grid_in g); [apply (sized_dims g s2); auto|].
        rewrite Ra3, Ra2, Ra1. exact Wr. }
    cbv beta. intros s5 (_ & Fl5 & _). exact Fl5.
  Qed.

  Theorem step_floored fuel p (w w' : world G) b :
    state_ok g G legal near w -> legal p -> floored (fst w) ->
    step G g P fuel p w = Ok (w', b) -> floored (fst w').
  Proof.
    destruct w as [s old]. intros Hw Hp Hfl E.
    set (n := Nat.max (step_need s) fuel).
    assert (E2 : step G g P n p (s, old) = Ok (w', b)).
    { eapply refines_ok; [apply (step_fuel G g P fuel n); unfold n; lia|exact E]. }
    pose proof (step_floored_need n p s old Hw Hp ltac:(unfold n; lia) Hfl) as Q.
    rewrite E2 in Q. exact Q.
  Qed.

  Theorem run_floored fuel ps : forall (w w' : world G),
    state_ok g G legal near w -> Forall legal ps -> floored (fst w) ->
    run G g P fuel ps w = Ok w' -> floored (fst w').
  Proof.
    induction ps as [|p ps IH]; intros w w' Hw Hps Hfl E; cbn [run] in E.
    - inversion E; subst; exact Hfl.
    - apply bind_ok in E as ([w1 b] & E1 & E2).
      pose proof (Forall_inv Hps) as Hp. pose proof (Forall_inv_tail Hps) as Hps'.
      destruct (run_ok g G legal near Hg HG P fuel [p] w w1 HP Hw ltac:(auto)) as [Hw1 _].
      { cbn [run]. rewrite E1. reflexivity. }
      apply (IH w1 w'); auto. exact (step_floored fuel p w w1 b Hw Hp Hfl E1).
  Qed.
End FloorStep.
