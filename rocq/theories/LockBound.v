(** How high the soil of an exact run can get: the terrain never goes below a level
    [-Lb] under everything, hence no height exceeds a bound given by the amount of soil. *)
From Coq Require Import ZArith List Bool Lia Permutation.
From Verif Require Import Outcome Num State ModelRelax ModelIntersect ModelBodySoil Base
  Spec InvBase RelaxBase RelaxTerrainProofs RelaxBodyProofs IntersectSoilProofs
  IntersectTerrainProofs BodySoilProofs.
Import ListNotations.
Open Scope Z_scope.

Section LockBound.
  Context {upm : units}.
  Local Notation sim := (sim (ZNum upm)).
  Local Notation rec := (rec_t (ZNum upm)).
  Local Notation walk := (walk (A := ZNum upm)).
  (** [H]: heights of the body; [Lb]: depth of the terrain and of the body; [T]: amount of soil; [K]: the
      bound of all heights. *)
  Variables H Lb T K : Z.

  Definition capped (s : sim) : Prop :=
    forall k i j, 0 <= k < 4 -> on_grid s i j ->
      Z.abs (body s k i j : Z) <= H /\ - Lb <= (body s k i j : Z).
  Definition floored (s : sim) : Prop :=
    forall i j, on_grid s i j -> - Lb <= (terrain s i j : Z).
  Definition room (s : sim) : Prop :=
    (0 <= H /\ 0 <= Lb) /\ 0 <= T /\ H + Lb + T + nx s * ny s * Lb <= K.

  (** [h] is soil that is being moved. *)
  Definition lim (s : sim) (h : Z) : Prop :=
    capped s /\ floored s /\ room s /\ total_soil s + h <= T.

  Lemma sum2_const n m c : 0 <= n -> 0 <= m -> sum2 n m (fun _ _ => c) = n * m * c.
  Proof.
    intros Hn Hm. unfold sum2.
    assert (S : forall k d, sum_to k (fun _ => d) = Z.of_nat k * d).
    { induction k; intros d; cbn [sum_to]; [lia|]. rewrite IHk. lia. }
    rewrite S.
    rewrite (S _ (sum_to (Z.to_nat m) (fun _ => c))) || idtac.
    rewrite ?S, !Z2Nat.id by lia. lia.
  Qed.

  (** One term of a sum of terms at least [-c]. *)
  Lemma sum2_one n m f c i j : 0 <= i < n -> 0 <= j < m -> 0 <= c ->
    (forall i j, 0 <= i < n -> 0 <= j < m -> - c <= f i j) ->
    f i j <= sum2 n m f + n * m * c.
  Proof.
    intros Hi Hj Hc Hf.
    rewrite <- (sum2_const n m c) by lia. rewrite <- sum2_add.
    assert (E : sum2 n m (fun i' j' => if (i' =? i) && (j' =? j) then f i j + c else 0) = f i j + c)
      by (apply sum2_single; auto).
    assert (S : 0 <= sum2 n m (fun i' j' => (f i' j' + c) -
      (if (i' =? i) && (j' =? j) then f i j + c else 0))).
    { apply sum2_nonneg. intros i' j' Hi' Hj'. specialize (Hf i' j' Hi' Hj').
      destruct (Z.eqb_spec i' i), (Z.eqb_spec j' j); cbn [andb]; subst; lia. }
    assert (S2 : sum2 n m (fun i' j' => f i' j' + c) =
      sum2 n m (fun i' j' => (f i' j' + c) -
        (if (i' =? i) && (j' =? j) then f i j + c else 0)) +
      sum2 n m (fun i' j' => if (i' =? i) && (j' =? j) then f i j + c else 0)).
    { rewrite <- sum2_add. apply sum2_ext. intros. lia. }
    rewrite E in S2. rewrite S2. lia.
  Qed.

  Section Bounds.
    Variable near : Pos (ZNum upm) -> Prop.
    Variable cz : Z.

    Lemma lim_bounds (s : sim) l h : consistent near cz s l -> lim s h -> 0 <= h ->
      (forall i j, on_grid s i j -> Z.abs (terrain s i j : Z) <= K) /\
      (forall k i j, 0 <= k < 4 -> on_grid s i j -> Z.abs (body_soil s k i j : Z) <= K) /\
      Forall (fun e : rec => Z.abs (e_h e : Z) <= K) l /\ h <= K.
    Proof.
      intros (N1 & N2 & Hc & Hr) (Hcap & Hfl & (HL & HT0 & HK) & HT) Hh.
      assert (HP : 0 <= nx s * ny s * Lb) by (apply Z.mul_nonneg_nonneg; [apply Z.mul_nonneg_nonneg|]; lia).
      pose proof (rec_ok_nonneg near cz s l Hr) as Hn.
      assert (SH : forall k i j, on_grid s i j -> layer k ->
        soil_height s k i j = recorded l k i j /\ 0 <= soil_height s k i j).
      { intros k i j Hg Hk. destruct (Hc i j Hg) as (_ & _ & Hs).
        destruct (Hs k Hk) as (_ & E). split; auto. rewrite E. apply recorded_nonneg; auto. }
      assert (SA : forall i j, 0 <= i < nx s -> 0 <= j < ny s -> - Lb <= soil_at s i j).
      { intros i j Hi Hj. unfold soil_at.
        pose proof (SH 0 i j (conj Hi Hj) (or_introl eq_refl)) as (_ & S0).
        pose proof (SH 2 i j (conj Hi Hj) (or_intror eq_refl)) as (_ & S2).
        pose proof (Hfl i j (conj Hi Hj)). lia. }
      assert (SB : forall i j, on_grid s i j -> soil_at s i j <= T - h + nx s * ny s * Lb).
      { intros i j (Hi & Hj).
        pose proof (sum2_one (nx s) (ny s) (soil_at s) Lb i j Hi Hj ltac:(lia) SA) as B.
        unfold total_soil in HT. lia. }
      assert (SC : forall k i j, on_grid s i j -> layer k ->
        0 <= soil_height s k i j <= T - h + nx s * ny s * Lb + Lb).
      { intros k i j Hg Hk.
        pose proof (SH 0 i j Hg (or_introl eq_refl)) as (_ & S0).
        pose proof (SH 2 i j Hg (or_intror eq_refl)) as (_ & S2).
        pose proof (SB i j Hg) as B. pose proof (Hfl i j Hg). unfold soil_at in B.
        destruct Hk as [->| ->]; lia. }
      split; [|split; [|split]].
      - intros i j Hg. pose proof (Hfl i j Hg). pose proof (SB i j Hg) as B.
        unfold soil_at in B.
        pose proof (SC 0 i j Hg (or_introl eq_refl)).
        pose proof (SC 2 i j Hg (or_intror eq_refl)). lia.
      - intros k i j Hk Hg.
        assert (LL : exists kk, layer kk /\ (k = kk \/ k = kk + 1) /\ 0 <= kk <= 2).
        { unfold layer. destruct (Z.le_gt_cases k 1); [exists 0|exists 2]; lia. }
        destruct LL as (kk & Lk & E & Rk).
        pose proof (SC kk i j Hg Lk) as S.
        destruct (Hc i j Hg) as (_ & _ & Hs). destruct (Hs kk Lk) as (Hso & _).
        pose proof (Hcap (kk + 1) i j ltac:(lia) Hg) as Hb.
        assert (Z00 : 0 <= H) by lia.
        assert (D : soil_on s kk i j \/
          ((body_soil s kk i j : Z) = 0 /\ (body_soil s (kk + 1) i j : Z) = 0)).
        { unfold soil_on. generalize (body_soil s kk i j : Z), (body_soil s (kk + 1) i j : Z). lia. }
        destruct D as [D|(D1 & D2)].
        + destruct (Hso D) as (_ & E1 & _). unfold soil_height in S.
          rewrite E1 in S.
          destruct E as [->| ->]; [rewrite E1|]; clear - S Hb HL HK Hh Z00 HT0 HP;
            set (b := (body s (kk + 1) i j : Z)) in *;
            set (bs := (body_soil s (kk + 1) i j : Z)) in *; lia.
        + destruct E as [->| ->]; [rewrite D1|rewrite D2]; cbn; lia.
      - apply Forall_forall. intros e He. rewrite Forall_forall in Hr.
        pose proof (Hr e He) as (Lk & Hi & H0 & _).
        destruct (In_nth_error _ _ He) as (nn & En).
        pose proof (recorded_in l nn e Hn En) as B.
        assert (Hg : on_grid s (e_i e) (e_j e)) by (unfold inside, on_grid in *; lia).
        pose proof (SH _ _ _ Hg Lk) as (E & _). rewrite <- E in B.
        pose proof (SC _ _ _ Hg Lk). clear - B H0 H1 HL HK Hh HT0 HP. lia.
      - pose proof (SB 0 0 ltac:(unfold on_grid; lia)).
        pose proof (SA 0 0 ltac:(lia) ltac:(lia)). lia.
    Qed.
  End Bounds.

  Lemma lim_same (s s' : sim) h h' :
    same_dims s s' -> beq s s' -> total_soil s' + h' <= total_soil s + h ->
    floored s' -> lim s h -> lim s' h'.
  Proof.
    intros (E1 & E2) Hb HT Hf (C & _ & (R1 & R2 & R3) & T1).
    split; [|split; [auto|split; [split; [|split]|]]]; auto.
    - intros k i j Hk Hg. rewrite Hb. apply C; auto. unfold on_grid in *. rewrite <- E1, <- E2. auto.
    - rewrite E1, E2. auto.
    - lia.
  Qed.

  (** The terrain is nowhere lower. *)
  Definition raised (s s' : sim) : Prop :=
    same_dims s s' /\ forall i j, on_grid s i j -> (terrain s i j : Z) <= terrain s' i j.

  Lemma raised_refl s : raised s s.
  Proof. split; [split; reflexivity|]. intros; lia. Qed.
  Lemma raised_trans s1 s2 s3 : raised s1 s2 -> raised s2 s3 -> raised s1 s3.
  Proof.
    intros ((A1 & A2) & A3) ((B1 & B2) & B3). split; [split; congruence|].
    intros i j Hg. pose proof (A3 i j Hg).
    assert (Hg2 : on_grid s2 i j) by (unfold on_grid in *; rewrite A1, A2; auto).
    pose proof (B3 i j Hg2). lia.
  Qed.
  Lemma raised_floored s s' : raised s s' -> floored s -> floored s'.
  Proof.
    intros ((E1 & E2) & R) Hf i j Hg.
    assert (Hg' : on_grid s i j) by (unfold on_grid in *; rewrite <- E1, <- E2; auto).
    pose proof (Hf i j Hg'). pose proof (R i j Hg'). lia.
  Qed.
  Lemma set_t_raised s i j (v : Z) : (on_grid s i j -> (terrain s i j : Z) <= v) ->
    raised s (set_t s i j v).
  Proof.
    intros Hv. split; [split; reflexivity|]. intros i' j' Hg. upds.
    destruct (Z.eqb_spec i' i), (Z.eqb_spec j' j); cbn [andb]; subst; auto; lia.
  Qed.

  (** ** The relaxation *)
  Section Relax.
    Variable near : Pos (ZNum upm) -> Prop.
    Variable frame : Z -> Z -> Z -> Pos (ZNum upm).
    Variable g : grid_t (ZNum upm).
    Variables dh tol : Z.
    Local Notation cz := (cell_z g : Z).
    Hypothesis Htol : 0 < tol.
    Hypothesis Hcz : 2 * tol < cz.
    Hypothesis Hdh : 0 <= dh.
    Hypothesis Adh : aligned cz dh.
    Local Notation good := (good near cz frame).

    (** Only the terrain of the two cells changes. *)
    Lemma relax_unstable_terrain_cell_terrain (s : sim) st i j ic jc :
      partial (relax_unstable_terrain_cell (A := ZNum upm) frame g dh tol s st i j ic jc)
        (fun s' => forall i' j', (i', j') <> (i, j) -> (st mod 10 = 0 -> (i', j') <> (ic, jc)) ->
           (terrain s' i' j' : Z) = terrain s i' j').
    Proof.
      assert (TT : forall (v w : Z) i' j', (i', j') <> (i, j) -> (i', j') <> (ic, jc) ->
        (terrain (set_t (A := ZNum upm) (set_t (A := ZNum upm) s i j v) ic jc w) i' j' : Z)
        = terrain s i' j').
      { intros v w i' j' N1 N2. upds. eqbs; auto; congruence. }
      assert (B1 : forall two k o i' j', (i', j') <> (i, j) ->
        (terrain (terrain_onto_body_soil (A := ZNum upm) frame g dh tol s two k o i j ic jc) i' j' : Z)
        = terrain s i' j').
      { intros two k o i' j' N1. unfold terrain_onto_body_soil. destruct (_ && _); upds;
          eqbs; auto; congruence. }
      assert (B2 : forall two k o i' j', (i', j') <> (i, j) ->
        (terrain (terrain_onto_body (A := ZNum upm) frame g dh tol s two k o i j ic jc) i' j' : Z)
        = terrain s i' j').
      { intros two k o i' j' N1. unfold terrain_onto_body. destruct (_ && _); upds;
          eqbs; auto; congruence. }
      unfold relax_unstable_terrain_cell.
      destruct (Z.eqb_spec (st mod 10) 0) as [E|E].
      - destruct (st / 10 =? 4); [cbn; intros; apply TT; auto|].
        apply partial_bind with (P := fun _ => True).
        { destruct (st / 10 =? 1); [exact I|]. destruct (st / 10 =? 2); [exact I|].
          destruct (st / 10 =? 3); exact I. }
        intros b _. destruct (fltb _ b); cbn; intros; apply TT; auto.
      - destruct (st mod 10 =? 1); [cbn; intros; apply B1; auto|].
        destruct (st mod 10 =? 2); [cbn; intros; apply B2; auto|].
        destruct (st mod 10 =? 3); [cbn; intros; apply B1; auto|].
        destruct (st mod 10 =? 4); [cbn; intros; apply B2; auto|].
        cbn. auto.
    Qed.

    Lemma relax_terrain_dir_floored (s : sim) i j d :
      good s (records s) -> inside s i j -> In d directions4 ->
      capped s -> 0 <= H /\ 0 <= Lb -> floored s ->
      partial (relax_terrain_dir (A := ZNum upm) frame g dh tol i j d s) floored.
    Proof.
      intros Hgood Hin Hd Hcap HL Hf. unfold relax_terrain_dir.
      destruct (directions4_neighbour d i j Hd) as (N & H1 & H2).
      set (ic := i + fst d) in *. set (jc := j + snd d) in *.
      assert (Hg : on_grid s i j) by (unfold inside, on_grid in *; lia).
      assert (Hgc : on_grid s ic jc) by (unfold inside, on_grid in *; lia).
      apply partial_guard. intros _.
      zn. destruct (check_terrain_status near frame g dh tol s ic jc (terrain s i j - dh)) as [E|E].
      { rewrite E. cbn. auto. }
      destruct (Z.eqb_spec (check_unstable_terrain_cell (A := ZNum upm) tol s ic jc
           (terrain s i j - dh)) 0) as [|Hn]; [cbn; auto|].
      set (st := check_unstable_terrain_cell _ _ _ _ _) in *.
      set (s1 := set_equilibrium s false).
      assert (SH : same_heights s s1) by (repeat split).
      assert (G1 : good s1 (records s1)) by (eapply good_same; eauto).
      assert (R := relax_unstable_terrain_cell_good near frame g dh tol Htol Hcz Adh s1 st i j ic jc
        G1 Hg Hgc N E).
      assert (U := relax_unstable_terrain_cell_terrain s1 st i j ic jc).
      destruct (relax_unstable_terrain_cell _ _ _ _ _ _ _ _ _ _) as [s'| |]; cbn in R, U |- *; auto.
      destruct R as ((G2 & F2) & Ar).
      intros i' j' Hg'.
      assert (Hg1 : on_grid s i' j').
      { destruct F2 as (((E1 & E2) & _) & _). unfold on_grid in *. rewrite E1, E2 in Hg'. auto. }
      assert (Dec : {(i', j') = (i, j)} + {(i', j') <> (i, j)})
        by (destruct (Z.eq_dec i' i), (Z.eq_dec j' j); subst; auto; right; congruence).
      assert (Dec2 : {(i', j') = (ic, jc)} + {(i', j') <> (ic, jc)})
        by (destruct (Z.eq_dec i' ic), (Z.eq_dec j' jc); subst; auto; right; congruence).
      destruct Ar as [(M & h & h1 & _ & _ & h3 & h4 & h5)|(k & Lk & Bk & M & h & h1 & _ & _ & h3 & h4 & h5)].
      - destruct Dec as [[= -> ->]|Dec]; [|destruct Dec2 as [[= -> ->]|Dec2]].
        + rewrite h3. pose proof (Hf ic jc Hgc). clear - H0 h4 h5 Hdh h1. cbn in h4, h5 |- *. lia.
        + rewrite h4. pose proof (Hf ic jc Hgc). clear - H0 h1. cbn in *. lia.
        + rewrite U by auto. apply Hf; auto.
      - destruct Dec as [[= -> ->]|Dec].
        + rewrite h3.
          assert (C : - Lb <= column_top s1 k ic jc).
          { rewrite (column_top_height near cz s1 (records s1)); auto; [|apply G1].
            assert (0 <= soil_height s1 k ic jc).
            { destruct (good_soil_cell _ _ _ _ G1 Hgc k Lk) as (_ & ->).
              apply recorded_nonneg. eapply rec_ok_nonneg. apply G1. }
            pose proof (Hcap (k + 1) ic jc ltac:(destruct Lk; lia) Hgc).
            cbn [s1 set_equilibrium body]. change (body s1) with (body s). lia. }
          clear - C h4 h5 Hdh h1. cbn in h5 |- *. lia.
        + rewrite U; [apply Hf; auto|auto|].
          intros M0. exfalso. destruct M as [(_ & M)|(_ & M)]; destruct Lk; lia.
    Qed.

    Lemma relax_terrain_dir_lim (s : sim) i j d :
      good s (records s) -> inside s i j -> In d directions4 -> lim s 0 ->
      returns (relax_terrain_dir (A := ZNum upm) frame g dh tol i j d s)
        (fun s' => good s' (records s') /\ flows s s' /\ lim s' 0).
    Proof.
      intros Hgood Hin Hd Hl.
      pose proof (relax_terrain_dir_good near frame g dh tol Htol Hcz Adh s i j d Hgood Hin Hd) as R.
      assert (U := relax_terrain_dir_floored s i j d Hgood Hin Hd (proj1 Hl)
        (proj1 (proj1 (proj2 (proj2 Hl)))) (proj1 (proj2 Hl))).
      destruct (relax_terrain_dir _ _ _ _ _ _ _ _) as [s'| |]; cbn in R, U |- *; auto.
      destruct R as (G2 & F2). split; [auto|]. split; [auto|].
      destruct F2 as ((F3 & F4 & _ & _ & F5) & _). eapply lim_same; eauto. lia.
    Qed.

    (** The terrain that receives soil from the body. *)
    Lemma relax_unstable_body_cell_terrain (s : sim) st pend nn (e : rec) i j ind ic jc i' j' :
      (st mod 10 = 0 -> (i', j') <> (ic, jc)) ->
      (terrain (fst (relax_unstable_body_cell (A := ZNum upm) frame g dh tol s st pend nn e
         i j ind ic jc)) i' j' : Z) = terrain s i' j'.
    Proof.
      intros N. unfold relax_unstable_body_cell.
      destruct (Z.eqb_spec (st mod 10) 0) as [E|E].
      - specialize (N E). cbn [fst]. unfold body_onto_terrain.
        assert (TT : forall (v : Z) (s2 : sim), terrain s2 = terrain (set_t (A := ZNum upm) s ic jc v) ->
          (terrain s2 i' j' : Z) = terrain s i' j').
        { intros v s2 ->. upds. eqbs; auto; congruence. }
        match goal with |- context [let '(x, y) := ?p in _] => destruct p as [hs hc] end.
        destruct (fltb _ _); eapply TT; reflexivity.
      - repeat match goal with |- context [if ?c then _ else _] =>
          lazymatch c with Z.eqb _ _ => destruct c end end; try reflexivity; cbn [fst].
        all: unfold body_onto_single, body_onto_two_soil, body_onto_two_body, take_soil.
        all: repeat match goal with
          | |- context [let '(x, y) := moved ?a ?b ?c ?d ?e ?f ?g ?h ?i in _] =>
              destruct (moved a b c d e f g h i)
          | |- context [if ?c then _ else _] => destruct c
          end; reflexivity.
    Qed.

    Lemma relax_body_dir_lim (s0 : sim) nn (e0 : rec) d st :
      nth_error (records s0) nn = Some e0 -> In d directions4 ->
      body_loop near frame g s0 st -> lim (fst st) 0 ->
      returns (relax_body_dir (A := ZNum upm) frame g dh tol nn (e_i e0) (e_j e0) (e_ind e0) d st)
        (fun st' => body_loop near frame g s0 st' /\ lim (fst st') 0).
    Proof.
      intros H0 Hd BL Hl.
      pose proof (relax_body_dir_good near frame g dh tol Htol Hcz Hdh Adh s0 nn e0 d st H0 Hd BL) as R.
      destruct st as [s pend]. destruct BL as (G & Fl & KK). cbn [fst] in Hl.
      assert (U : partial (relax_body_dir (A := ZNum upm) frame g dh tol nn (e_i e0) (e_j e0) (e_ind e0) d
        (s, pend)) (fun st' => floored (fst st') /\ flows s (fst st'))).
      { clear R. unfold relax_body_dir.
        destruct (keys_nth _ _ _ _ KK H0) as (e & He & E1 & E2 & E3).
        rewrite <- E1, <- E2, <- E3.
        assert (Hrec : rec_ok near cz s e) by (eapply move_rec; eauto).
        destruct Hrec as (Hk & Hin & _).
        destruct (directions4_neighbour d (e_i e) (e_j e) Hd) as (N & H1 & H2).
        set (ic := e_i e + fst d) in *. set (jc := e_j e + snd d) in *.
        assert (Hg : on_grid s (e_i e) (e_j e)) by (unfold inside, on_grid in *; lia).
        assert (Hgc : on_grid s ic jc) by (unfold inside, on_grid in *; lia).
        apply partial_guard. intros _.
        rewrite He. zn.
        destruct (check_body_status g tol s (e_i e) (e_j e) (e_ind e) ic jc
           (body_soil s (e_ind e + 1) (e_i e) (e_j e) - dh)) as (st & -> & Hst).
        destruct (Z.eqb_spec st 0); [cbn; split; [apply Hl|apply flows_refl]|].
        destruct Hst as [|Hst]; [tauto|].
        set (s1 := set_equilibrium s false).
        assert (SH : same_heights s s1) by (repeat split).
        assert (G1 : good s1 (records s1 ++ pend)) by (eapply good_same; eauto).
        destruct (relax_unstable_body_cell_good near frame g dh tol Htol Hcz Hdh Adh
          s1 pend nn e ic jc G1 He Hgc N st Hst) as [[G2 F2] Ar].
        assert (U := fun i' j' => relax_unstable_body_cell_terrain s1 st pend nn e
          (e_i e) (e_j e) (e_ind e) ic jc i' j').
        destruct (relax_unstable_body_cell (A := ZNum upm) frame g dh tol s1 st pend nn e
          (e_i e) (e_j e) (e_ind e) ic jc) as [s2 pend2].
        cbn [fst snd] in *. cbn [partial fst]. split; [|exact F2].
        destruct Hl as (_ & Hf & _).
        intros i' j' Hg'.
        assert (Hg1 : on_grid s i' j').
        { destruct F2 as (((D1 & D2) & _) & _). unfold on_grid in *. rewrite D1, D2 in Hg'. auto. }
        assert (Dec2 : {(i', j') = (ic, jc)} + {(i', j') <> (ic, jc)})
          by (destruct (Z.eq_dec i' ic), (Z.eq_dec j' jc); subst; auto; right; congruence).
        destruct Dec2 as [[= -> ->]|Dec2].
        - destruct Ar as [(M & h & h1 & _ & _ & _ & h4 & _)|(k & Lk & _ & M & _)].
          + rewrite h4. pose proof (Hf ic jc Hgc). clear - H3 h1. cbn in *. lia.
          + rewrite U. { apply Hf; auto. }
            intros M0. exfalso. destruct M as [(_ & M)|(_ & M)]; destruct Lk; lia.
        - rewrite U by auto. apply Hf; auto. }
      destruct (relax_body_dir _ _ _ _ _ _ _ _ _ _) as [st'| |]; cbn in R, U |- *; auto.
      split; [auto|]. destruct U as (U1 & (F3 & F4 & _ & _ & F5) & _).
      eapply lim_same; eauto. lia.
    Qed.
  End Relax.
End LockBound.
