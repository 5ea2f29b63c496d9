(** Moving the soil out of the body, in the two runs side by side. *)
From Coq Require Import ZArith List Bool Lia Permutation.
From Verif Require Import Outcome Num State ModelRelax ModelIntersect Base Spec InvBase
  RelaxBase IntersectSoilProofs IntersectTerrainProofs LockBase LockBound LockRelax
  LockRelaxLoop.
Import ListNotations.
Open Scope Z_scope.

(** The terrain is only raised. *)
Section Raised.
  Context {upm : units}.
  Local Notation sim := (sim (ZNum upm)).
  Local Notation walk := (walk (A := ZNum upm)).
  Variable frame : Z -> Z -> Z -> Pos (ZNum upm).
  Variable tol : Z.

  Lemma raised_same (s s' : sim) : nx s' = nx s -> ny s' = ny s -> terrain s' = terrain s ->
    raised s s'.
  Proof. intros E1 E2 E3. split; [split; auto|]. intros i j _. rewrite E3. lia. Qed.

  Lemma move_body_soil_raised (s : sim) (w : walk) (mx : Z) i j : 0 <= (w_h w : Z) ->
    partial (move_body_soil (A := ZNum upm) frame tol s w mx i j) (fun p => raised s (fst p)).
  Proof.
    intros Hh. unfold move_body_soil. apply partial_guard. intros _.
    assert (Up : raised s (set_t (A := ZNum upm) s i j ((terrain s i j : Z) + w_h w)))
      by (apply set_t_raised; lia).
    assert (Single : forall k, raised s (fst (move_single (A := ZNum upm) frame tol s w mx k i j))).
    { intros k. unfold move_single. destruct (fltb _ _); [exact Up|].
      destruct (fltb _ _); [apply raised_refl|].
      destruct (soil_present s k i j); apply raised_same; reflexivity. }
    assert (Between : raised s (fst (move_between (A := ZNum upm) frame tol s w i j))).
    { unfold move_between. destruct (fltb (body s 0 i j) _).
      all: match goal with |- context [if ?c then _ else _] => destruct c end;
        [apply raised_refl|].
      all: destruct (soil_present _ _ _ _).
      all: destruct (fltb _ _); apply raised_same; reflexivity. }
    destruct (_ && _); [exact Up|]. destruct (body_absent s 0 i j); [apply Single|].
    destruct (body_absent s 2 i j); [apply Single|apply Between].
  Qed.
End Raised.

Section LockIntersect.
  Context {A : Num}.
  Variable L : locked A.
  Local Notation N := (ZNum (exact L)).
  Local Notation W := (W L).
  Local Notation WB := (WB L).
  Local Notation rel := (rel L).
  Local Notation relr := (relr L).
  Variables Lb T : Z.
  Local Notation lim := (lim (upm := exact L) (l_H L) Lb T (l_K L)).
  Variable near : Pos N -> Prop.
  Variable frame : Z -> Z -> F A -> Pos A.
  Local Notation tA := (l_tA L).
  Local Notation tz := (l_tz L).
  Local Notation cz := (l_cz L).
  Local Notation ready := (ready near cz (fr L frame)).

  Definition relw n (w : walk (A := A)) (w' : walk (A := N)) : Prop :=
    w_ind w = w_ind w' /\ w_i w = w_i w' /\ w_j w = w_j w' /\ w_wall w = w_wall w' /\
    W n (w_h w) (w_h w') /\ 0 <= w_ind w' < 3.

  Lemma relw_mk n k i j h h' b : W n h h' -> 0 <= k < 3 ->
    relw n (mkWalk k i j h b) (mkWalk (A := N) k i j h' b).
  Proof. intros Hh Hk. do 4 (split; [reflexivity|]). split; [exact Hh|exact Hk]. Qed.

  Lemma ready_bounds s h : ready s -> lim s h -> 0 <= h -> bounded L s /\ h <= l_K L.
  Proof.
    intros (Hc & _) Hl Hh.
    destruct (lim_bounds _ _ _ _ near cz s (records s) h Hc Hl Hh) as (B1 & B2 & B3 & B4).
    split; [split; [auto|split; auto]|auto].
  Qed.

  Definition relsw n (p : sim A * walk) (q : sim N * walk) : Prop :=
    rel n (fst p) (fst q) /\ relw n (snd p) (snd q).

  Lemma move_single_lock a s w w' mx mx' k i j : rel 1 a s -> relw 1 w w' -> WB mx mx' ->
    on_grid s i j -> on_grid s (w_i w') (w_j w') -> k = 0 \/ k = 2 ->
    relsw 4 (move_single frame tA a w mx k i j)
      (move_single (A := N) (fr L frame) tz s w' mx' k i j).
  Proof.
    intros R (E1 & E2 & E3 & E4 & Hh & Hk0) Hmx Hg Hgw Hk. unfold move_single.
    rewrite E1, E2, E3, E4.
    assert (0 <= k < 3 /\ 0 <= k + 1 < 4) as (Hk1 & Hk2) by lia.
    assert (B : WB (body a (k + 1) i j) (body s (k + 1) i j)) by (eapply rel_b; eauto).
    assert (X0 : W 4 (fadd (terrain a i j) (w_h w)) (@fadd N (terrain s i j) (w_h w'))) by ww.
    assert (X1 : W 4 (fadd (body_soil a (k + 1) i j) (w_h w))
      (@fadd N (body_soil s (k + 1) i j) (w_h w'))) by ww.
    assert (X2 : W 4 (fadd (body a (k + 1) i j) (w_h w))
      (@fadd N (body s (k + 1) i j) (w_h w'))) by ww.
    rewrite (rel_soil_present _ _ _ _ k i j R) by auto.
    wtests L.
    assert (H4 : W 4 (w_h w) (w_h w')) by (eapply W_le; [exact Hh|lia]).
    assert (R4 : rel 4 a s) by (eapply rel_le; [|exact R]; lia).
    destruct (fltb _ _).
    { split; cbn [fst snd]; [|apply relw_mk; auto; apply W_0; lia].
      apply rel_set_t; auto. }
    destruct (fltb _ _).
    { split; cbn [fst snd]; [auto|apply relw_mk; auto]. }
    split; cbn [fst snd]; [|apply relw_mk; auto; apply W_0; lia].
    destruct (soil_present s k i j).
    - apply rel_push; [apply rel_set_bs; auto|].
      cbn [body set_bs]. rewrite (fr_eq L frame i j _ _ B). apply relr_mk; auto.
    - apply rel_push; [apply rel_set_bs; [apply rel_set_bs|]; auto|].
      + eapply W_le; [apply WB_W; exact B|lia].
      + cbn [body set_bs]. rewrite (fr_eq L frame i j _ _ B). apply relr_mk; auto.
  Qed.

  Lemma move_between_lock a s w w' i j : rel 1 a s -> relw 1 w w' ->
    on_grid s i j ->
    relsw 4 (move_between frame tA a w i j)
      (move_between (A := N) (fr L frame) tz s w' i j).
  Proof.
    intros R (E1 & E2 & E3 & E4 & Hh & Hk0) Hg. unfold move_between.
    rewrite E1, E2, E3, E4.
    rewrite (W_lt L 1 1 _ _ _ _ (WB_W _ _ _ (rel_b _ _ _ _ R 0 i j ltac:(lia) Hg))
      (WB_W _ _ _ (rel_b _ _ _ _ R 2 i j ltac:(lia) Hg))).
    assert (C : forall kb kt, (kb = 0 /\ kt = 2 \/ kb = 2 /\ kt = 0) -> relsw 4
      (let present := soil_present a kb i j in
       if present && fltb (body a kt i j) (fadd (body_soil a (kb + 1) i j) tA) then
         (a, mkWalk kb i j (w_h w) (w_wall w'))
       else
         let pos := frame i j (body a (kb + 1) i j) in
         if present then
           let delta_h := fsub (body a kt i j) (body_soil a (kb + 1) i j) in
           if fltb delta_h (w_h w) then
             (push_record
                (set_bs a (kb + 1) i j (fadd (body_soil a (kb + 1) i j) delta_h))
                (mkRec kb i j pos delta_h),
              mkWalk kb i j (fsub (w_h w) delta_h) (w_wall w'))
           else
             (push_record
                (set_bs a (kb + 1) i j (fadd (body_soil a (kb + 1) i j) (w_h w)))
                (mkRec kb i j pos (w_h w)),
              mkWalk (w_ind w') (w_i w') (w_j w') f0 (w_wall w'))
         else
           let delta_h := fsub (body a kt i j) (body a (kb + 1) i j) in
           if fltb delta_h (w_h w) then
             (push_record
                (set_bs (set_bs a kb i j (body a (kb + 1) i j))
                        (kb + 1) i j (fadd (body a (kb + 1) i j) delta_h))
                (mkRec kb i j pos delta_h),
              mkWalk kb i j (fsub (w_h w) delta_h) (w_wall w'))
           else
             (push_record
                (set_bs (set_bs a kb i j (body a (kb + 1) i j))
                        (kb + 1) i j (fadd (body a (kb + 1) i j) (w_h w)))
                (mkRec kb i j pos (w_h w)),
              mkWalk (w_ind w') (w_i w') (w_j w') f0 (w_wall w')))
      (let present := soil_present s kb i j in
       if present && @fltb N (body s kt i j) (@fadd N (body_soil s (kb + 1) i j) tz) then
         (s, mkWalk (A := N) kb i j (w_h w') (w_wall w'))
       else
         let pos := fr L frame i j (body s (kb + 1) i j) in
         if present then
           let delta_h := @fsub N (body s kt i j) (body_soil s (kb + 1) i j) in
           if @fltb N delta_h (w_h w') then
             (push_record
                (set_bs s (kb + 1) i j (@fadd N (body_soil s (kb + 1) i j) delta_h))
                (mkRec (A := N) kb i j pos delta_h),
              mkWalk (A := N) kb i j (@fsub N (w_h w') delta_h) (w_wall w'))
           else
             (push_record
                (set_bs s (kb + 1) i j (@fadd N (body_soil s (kb + 1) i j) (w_h w')))
                (mkRec (A := N) kb i j pos (w_h w')),
              mkWalk (A := N) (w_ind w') (w_i w') (w_j w') (@f0 N) (w_wall w'))
         else
           let delta_h := @fsub N (body s kt i j) (body s (kb + 1) i j) in
           if @fltb N delta_h (w_h w') then
             (push_record
                (set_bs (set_bs s kb i j (body s (kb + 1) i j))
                        (kb + 1) i j (@fadd N (body s (kb + 1) i j) delta_h))
                (mkRec (A := N) kb i j pos delta_h),
              mkWalk (A := N) kb i j (@fsub N (w_h w') delta_h) (w_wall w'))
           else
             (push_record
                (set_bs (set_bs s kb i j (body s (kb + 1) i j))
                        (kb + 1) i j (@fadd N (body s (kb + 1) i j) (w_h w')))
                (mkRec (A := N) kb i j pos (w_h w')),
              mkWalk (A := N) (w_ind w') (w_i w') (w_j w') (@f0 N) (w_wall w')))).
    { intros kb kt Hkk. cbv zeta.
      assert (0 <= kb < 3 /\ 0 <= kb + 1 < 4 /\ 0 <= kt < 4) as (Hk1 & Hk2 & Hk3) by lia.
      assert (B : WB (body a (kb + 1) i j) (body s (kb + 1) i j)) by (eapply rel_b; eauto).
      assert (B' : WB (body a kt i j) (body s kt i j)) by (eapply rel_b; eauto).
      rewrite (fr_eq L frame i j _ _ B).
      rewrite (rel_soil_present _ _ _ _ kb i j R) by auto.
      set (dA := fsub (body a kt i j) (body_soil a (kb + 1) i j)).
      set (d := @fsub N (body s kt i j) (body_soil s (kb + 1) i j)).
      assert (D : W 2 dA d) by (unfold dA, d; ww).
      set (eA := fsub (body a kt i j) (body a (kb + 1) i j)).
      set (e := @fsub N (body s kt i j) (body s (kb + 1) i j)).
      assert (E : W 2 eA e) by (unfold eA, e; ww).
      assert (X0 : W 4 (fadd (body_soil a (kb + 1) i j) dA)
        (@fadd N (body_soil s (kb + 1) i j) d)) by ww.
      assert (X1 : W 4 (fadd (body_soil a (kb + 1) i j) (w_h w))
        (@fadd N (body_soil s (kb + 1) i j) (w_h w'))) by ww.
      assert (X2 : W 4 (fadd (body a (kb + 1) i j) eA)
        (@fadd N (body s (kb + 1) i j) e)) by ww.
      assert (X3 : W 4 (fadd (body a (kb + 1) i j) (w_h w))
        (@fadd N (body s (kb + 1) i j) (w_h w'))) by ww.
      assert (X4 : W 4 (fsub (w_h w) dA) (@fsub N (w_h w') d)) by ww.
      assert (X5 : W 4 (fsub (w_h w) eA) (@fsub N (w_h w') e)) by ww.
      rewrite (W_lt L _ _ _ _ _ _ D Hh), (W_lt L _ _ _ _ _ _ E Hh).
      rewrite (W_gt_add L _ _ _ _ _ (rel_bs _ _ _ _ R (kb + 1) i j Hk2 Hg) B' ltac:(lia)).
      assert (R4 : rel 4 a s) by (eapply rel_le; [|exact R]; lia).
      assert (D4 : W 4 dA d) by (eapply W_le; [exact D|lia]).
      assert (E5 : W 4 eA e) by (eapply W_le; [exact E|lia]).
      assert (H4 : W 4 (w_h w) (w_h w')) by (eapply W_le; [exact Hh|lia]).
      assert (B4 : W 4 (body a (kb + 1) i j) (body s (kb + 1) i j))
        by (eapply W_le; [apply WB_W; exact B|lia]).
      assert (Z4 : W 4 f0 (@f0 N)) by (apply W_0; lia).
      destruct (_ && _); [split; [exact R4|apply relw_mk; auto]|].
      destruct (soil_present s kb i j); destruct (fltb _ _).
      all: split; cbn [fst snd]; [|apply relw_mk; auto].
      all: apply rel_push; [|apply relr_mk; auto].
      all: repeat (apply rel_set_bs; auto). }
    destruct (@fltb N _ _); [apply (C 0 2)|apply (C 2 0)]; auto.
  Qed.

  Lemma move_body_soil_lock a s w w' mx mx' i j : rel 1 a s -> relw 1 w w' -> WB mx mx' ->
    sync (relsw 4) (move_body_soil frame tA a w mx i j)
      (move_body_soil (A := N) (fr L frame) tz s w' mx' i j).
  Proof.
    intros R Rw Hmx. pose proof Rw as (E1 & E2 & E3 & E4 & Hh & Hk0). unfold move_body_soil.
    rewrite !(rel_inb _ _ _ _ _ _ R), E2, E3.
    apply sync_guard; [reflexivity|]. intros E. rewrite andb_true_iff in E. destruct E as (G1 & G2).
    apply inb_grid in G1, G2.
    rewrite !(rel_body_absent _ _ _ _ _ _ _ R) by (auto; lia).
    destruct (_ && _).
    { apply sync_ok. split; cbn [fst snd].
      - assert (X0 : W 4 (fadd (terrain a i j) (w_h w)) (@fadd N (terrain s i j) (w_h w'))) by ww.
        apply rel_set_t; auto. eapply rel_le; [|exact R]; lia.
      - rewrite E1, E4. apply relw_mk; auto. apply W_0; lia. }
    destruct (body_absent s 0 i j); [apply sync_ok, move_single_lock; auto|].
    destruct (body_absent s 2 i j); [apply sync_ok, move_single_lock; auto|].
    apply sync_ok, move_between_lock; auto.
  Qed.

  Lemma cz_tol : 2 * tz < cz.
  Proof. apply l_half. Qed.
  Lemma tz_pos : 0 < tz.
  Proof. apply l_tz_pos. Qed.
  Lemma W_aligned n a x : W n a x -> aligned cz x.
  Proof. intros (Hv & _). apply (l_aligned _ L) with (1 := Hv). Qed.

  Lemma lim_moves n s h s' h' : moves near cz (fr L frame) n s h s' h' -> raised s s' ->
    lim s h -> lim s' h'.
  Proof.
    intros (_ & Dm & Be & _ & _ & _ & _ & Tt & _) Ra Hl.
    eapply lim_same; [exact Dm|exact Be| | |exact Hl]; [lia|].
    eapply raised_floored; [exact Ra|apply Hl].
  Qed.

  Definition moved_pair (p : sim A * walk) (q : sim N * walk) : Prop :=
    relsw 1 p q /\ lim (fst q) (w_h (snd q)).

  Lemma explore_lock d i j : In d directions8 ->
    forall fuel a s w w' mx mx' pp,
    rel 1 a s -> relw 1 w w' -> WB mx mx' -> lim s (w_h w') ->
    ready s -> inside s i j -> inside s (w_i w') (w_j w') -> 0 <= (w_h w' : Z) ->
    0 <= pp -> (inside s (i + pp * fst d) (j + pp * snd d) \/ (w_h w' : Z) = 0) ->
    sync moved_pair (explore frame tA fuel a w mx i j d pp)
      (explore (A := N) (fr L frame) tz fuel s w' mx' i j d pp).
  Proof.
    intros Hd. destruct (directions8_neighbour d Hd) as (Nd & D1 & D2).
    induction fuel as [|fuel IH]; intros a s w w' mx mx' pp R Rw Hmx Hl Rd Hij Hw Hh Hpp Hin.
    all: pose proof Rw as (E1 & E2 & E3 & E4 & Wh & Hk0).
    all: cbn [explore]; rewrite E4, (W_gt_tol L _ _ _ Wh).
    all: destruct (negb (w_wall w') && _) eqn:E; [|apply sync_ok; split; [split|]; auto].
    - exact I.
    - apply andb_true_iff in E as [_ E].
      assert (Epos : tz < (w_h w' : Z)) by (apply Z.ltb_lt; exact E).
      pose proof tz_pos as Htz. pose proof cz_tol as Hcz.
      assert (Hpos : inside s (i + pp * fst d) (j + pp * snd d)) by (destruct Hin; [auto|lia]).
      set (ip := i + (pp + 1) * fst d). set (jp := j + (pp + 1) * snd d).
      assert (Hg : on_grid s ip jp)
        by (unfold inside, on_grid in *; apply (march_next (nx s) (ny s)); tauto).
      pose proof (move_body_soil_walked near cz (fr L frame) tz Htz s w' mx' ip jp Rd Hg Hw Hh
        (W_aligned _ _ _ Wh)) as Mv.
      pose proof (move_body_soil_raised (fr L frame) tz s w' mx' ip jp Hh) as Ra.
      eapply sync_bind; [apply move_body_soil_lock; eauto|].
      intros [a1 w1] [s1 w1'] Eq (R1 & Rw1). cbn [fst snd] in R1, Rw1.
      rewrite Eq in Mv, Ra. cbn [returns partial fst] in Mv, Ra.
      destruct Mv as (M & I1 & I2).
      pose proof M as (Rd1 & Dm & _ & _ & _ & _ & _ & _ & Hh1 & Ah1 & _).
      pose proof (lim_moves _ _ _ _ _ M Ra Hl) as Hl1.
      destruct (ready_bounds _ _ Rd1 Hl1 ltac:(lia)) as (B1 & B2).
      pose proof (rel_one _ _ _ _ R1 B1) as R1'.
      destruct Rw1 as (F1 & F2 & F3 & F4 & Wh1 & Fk).
      assert (Rw1 : relw 1 w1 w1').
      { do 4 (split; [assumption|]). split; [|assumption]. eapply W_one; [exact Wh1|]. lia. }
      assert (I1' : inside s1 (w_i w1') (w_j w1')) by (eapply inside_dims; eauto).
      assert (Hg1 : on_grid s1 (w_i w1') (w_j w1')) by (unfold inside, on_grid in *; lia).
      rewrite (rel_inb _ _ _ _ _ _ R1'), F2, F3.
      apply sync_guard; [reflexivity|]. intros _.
      apply IH; auto.
      + apply WB_max; eapply rel_b; eauto; lia.
      + eapply inside_dims; eauto.
      + lia.
      + lia.
      + destruct I2 as [I2|I2]; [left|auto]. eapply inside_dims; eauto.
  Qed.

  Definition moved_h (p : sim A * F A) (q : sim N * F N) : Prop :=
    rel 1 (fst p) (fst q) /\ W 1 (snd p) (snd q) /\ lim (fst q) (snd q).

  Lemma explore_all_lock ind ind_t i j fuel dirs :
    0 <= ind < 3 -> 0 <= ind_t < 4 ->
    Forall (fun d => In d directions8) dirs ->
    forall a s h h',
    rel 1 a s -> W 1 h h' -> lim s h' -> ready s -> inside s i j -> 0 <= (h' : Z) ->
    nx s + ny s <= Z.of_nat fuel ->
    sync moved_h (explore_all frame tA fuel dirs a ind ind_t i j h)
      (explore_all (A := N) (fr L frame) tz fuel dirs s ind ind_t i j h').
  Proof.
    intros Hk Hkt. induction 1 as [|d dirs Hd Fd IH]; intros a s h h' R Hw Hl Rd Hij Hh Hf.
    - apply sync_ok. split; [|split]; auto.
    - cbn [explore_all].
      assert (Hg : on_grid s i j) by (unfold inside, on_grid in *; lia).
      pose proof tz_pos as Htz. pose proof cz_tol as Hcz.
      assert (Hin0 : inside s (i + 0 * fst d) (j + 0 * snd d) \/ (h' : Z) = 0)
        by (left; unfold inside in *; lia).
      eapply sync_bind.
      + apply explore_lock with (w' := mkWalk (A := N) ind i j h' false)
          (mx' := body s ind_t i j) (d := d); auto; try (cbn; lia).
        * apply relw_mk; auto.
        * eapply rel_b; eauto.
      + intros [a1 w1] [s1 w1'] Eq ((R1 & Rw1) & Hl1). cbn [fst snd] in *.
        pose proof (explore_moves near cz (fr L frame) tz Htz d i j Hd fuel s
          (mkWalk (A := N) ind i j h' false) (body s ind_t i j) 0 Rd Hij Hij Hh
          (W_aligned _ _ _ Hw) ltac:(lia) Hin0 ltac:(lia)) as M.
        rewrite Eq in M. cbn [returns fst snd w_h] in M.
        pose proof M as (Rd1 & Dm & _ & _ & _ & _ & _ & _ & Hh1 & Ah1 & _).
        destruct Rw1 as (F1 & F2 & F3 & F4 & Wh1 & Fk).
        rewrite (W_lt_tol L _ _ _ Wh1).
        destruct (fltb _ _); [apply sync_ok; split; [|split]; auto|].
        apply IH; auto.
        * eapply inside_dims; eauto.
        * cbn in Hh1 |- *. lia.
        * destruct Dm as [-> ->]. lia.
  Qed.

  (** The soil taken from a record. *)
  Lemma take_over (s : sim N) nn (e : rec_t N) (h : Z) :
    let k := e_ind e in let i := e_i e in let j := e_j e in
    let s1 := set_bs (A := N) (set_record_h (A := N) s nn e ((e_h e : Z) - h)) (k + 1) i j
                 ((body_soil s (k + 1) i j : Z) - h) in
    ready s -> nth_error (records s) nn = Some e ->
    body_at s (2 - k) i j -> (body s k i j : Z) < body s (2 - k) i j ->
    (body s (2 - k) i j : Z) < body_soil s (k + 1) i j ->
    0 <= h <= (e_h e : Z) -> h <= (body_soil s (k + 1) i j : Z) - body s (2 - k) i j ->
    aligned cz h ->
    ready s1 /\ total_soil s1 + h = total_soil s.
  Proof.
    intros k i j s1 R Hn Ea Ec1 Ec2 Hh Hh0 Ah.
    pose proof R as [HI Hfr]. pose proof HI as (N1 & N2 & H1 & H2).
    assert (Hok : rec_ok near cz s e)
      by (eapply Forall_forall; [exact H2|]; eapply nth_error_In; eauto).
    pose proof Hok as (Hk & Hin & Hpos & Aeh & Hnear). fold k in Hk. fold i j in Hin.
    assert (Hg : on_grid s i j) by (unfold inside, on_grid in *; lia).
    destruct (H1 i j Hg) as ([_ A1] & [A2 _] & A3).
    destruct (A3 k Hk) as [B1 B2].
    pose proof (recorded_in _ nn e (rec_ok_nonneg _ _ _ _ H2) Hn) as Hle. fold k i j in Hle.
    assert (Hset : soil_set s s1 k i j (taken_lo s k i j h) (taken_hi s k i j h)).
    { unfold taken_lo, taken_hi.
      assert (Hc : h < soil_height s k i j /\ soil_on s k i j \/
        h = 0 /\ e_h e = 0 /\ soil_height s k i j = 0 /\
        (body_soil s k i j : Z) = 0 /\ (body_soil s (k + 1) i j : Z) = 0).
      { destruct (soil_present s k i j) eqn:E.
        - apply soil_present_spec in E. left. split; auto.
          destruct (B1 E) as (Hbk & C & _). destruct (A2 k Hk Hbk) as [_ L0].
          pose proof R as [(_ & _ & H1' & _) _]. destruct (H1' i j Hg) as (_ & [_ A2'] & _).
          assert (Lk : layer (2 - k)) by (unfold layer in *; lia).
          destruct (A2 (2 - k) Lk Ea) as [_ L'].
          unfold soil_height. rewrite C.
          destruct Hk as [K|K]; rewrite K in *; kred; specialize (A2' ltac:(auto) ltac:(auto)); lia.
        - apply soil_present_false in E as [E1' E2]. right.
          assert (soil_height s k i j = 0) by (unfold soil_height; lia).
          assert (e_h e = 0) by (zn; lia). repeat split; auto. zn; lia. }
      destruct Hc as [[Hc So]|(Hc & Ce & Cs & C0 & C1)].
      - rewrite (proj2 (Z.ltb_lt _ _)) by auto.
        unfold s1. split; [split; auto|].
        split; [intros i' j'; auto|]. split; [intros k' i' j'; auto|]. upds.
        split; [|split].
        + eqbs; auto; lia.
        + rewrite !Z.eqb_refl. reflexivity.
        + intros k' i' j' Nn. eqbs; auto; tauto.
      - rewrite Cs, Hc. cbn [Z.ltb Z.compare].
        unfold s1. split; [split; auto|].
        split; [intros i' j'; auto|]. split; [intros k' i' j'; auto|]. upds.
        rewrite Hc in *.
        split; [|split].
        + eqbs; auto; lia.
        + rewrite !Z.eqb_refl. cbn. lia.
        + intros k' i' j' Nn. eqbs; auto; tauto. }
    destruct (consistent_take near cz s s1 (records s) nn e h (l_cz_pos _ L) HI Hn Hh Ah Hset)
      as (C1 & C2 & _).
    split; [|lia]. split; [exact C1|]. eapply frame_near_beq; [| |exact Hfr]; apply Hset.
  Qed.

  Definition moved_dirs (p : sim A * list (Z * Z)) (q : sim N * list (Z * Z)) : Prop :=
    rel 1 (fst p) (fst q) /\ snd p = snd q /\ lim (fst q) 0.

  Lemma lim_less s h h' : lim s h -> h' <= h -> lim s h'.
  Proof. intros (H1 & H2 & H3 & H4) Hh. split; [|split; [|split]]; auto. lia. Qed.

  Lemma move_record_lock fuel a s nn ea e dirs :
    rel 1 a s -> relr 1 ea e -> lim s 0 ->
    ready s -> nth_error (records s) nn = Some e -> Permutation dirs directions8 ->
    nx s + ny s <= Z.of_nat fuel ->
    sync moved_dirs (move_record frame tA fuel nn ea a dirs)
      (move_record (A := N) (fr L frame) tz fuel nn e s dirs).
  Proof.
    intros R Re Hl Rd Hn P Hf. unfold move_record.
    pose proof Re as (E1 & E2 & E3 & E4 & Eh). rewrite E1, E2, E3.
    pose proof Rd as [HI Hfr]. pose proof HI as (N1 & N2 & H1 & H2).
    assert (Hok : rec_ok near cz s e)
      by (eapply Forall_forall; [exact H2|]; eapply nth_error_In; eauto).
    pose proof Hok as (Hk & Hin & Hpos & Aeh & Hnear).
    assert (Hg : on_grid s (e_i e) (e_j e)) by (unfold inside, on_grid in *; lia).
    set (k := e_ind e) in *. set (i := e_i e) in *. set (j := e_j e) in *.
    assert (Et : (if k =? 0 then 2 else 0) = 2 - k)
      by (destruct Hk as [->| ->]; reflexivity).
    rewrite Et. clear Et.
    assert (0 <= k < 3 /\ 0 <= k + 1 < 4 /\ 0 <= 2 - k < 3 /\ 0 <= k < 4 /\ 0 <= 2 - k < 4)
      as (K1 & K2 & K3 & K4 & K5) by (unfold layer in Hk; lia).
    rewrite !(rel_inb _ _ _ _ _ _ R).
    apply sync_guard; [reflexivity|]. intros _.
    rewrite (rel_body_absent _ _ _ _ _ _ _ R) by auto.
    destruct (body_absent s (2 - k) i j) eqn:Ea; [apply sync_ok; split; [|split]; auto|].
    apply body_absent_spec in Ea.
    set (hA0 := fsub (body_soil a (k + 1) i j) (body a (2 - k) i j)).
    set (h0 := @fsub N (body_soil s (k + 1) i j) (body s (2 - k) i j)).
    assert (H0 : W 2 hA0 h0) by (unfold hA0, h0; ww).
    wtests L.
    destruct (_ && _) eqn:Ec; [|apply sync_ok; split; [|split]; auto].
    apply andb_true_iff in Ec as [Ec1 Ec2].
    assert (Ec1' : (body s k i j : Z) < body s (2 - k) i j) by (apply Z.ltb_lt; exact Ec1).
    assert (Ec2' : (body s (2 - k) i j : Z) < body_soil s (k + 1) i j - tz)
      by (apply Z.ltb_lt; exact Ec2).
    clear Ec1 Ec2.
    pose proof tz_pos as Htz. pose proof cz_tol as Hcz.
    (* the amount of soil *)
    assert (C : exists hA h,
      (if @fltb N (e_h e) h0
       then (e_h ea, set_record_h a nn ea f0)
       else (hA0, set_record_h a nn ea (fsub (e_h ea) hA0)))
      = (hA, if @fltb N (e_h e) h0 then set_record_h a nn ea f0
             else set_record_h a nn ea (fsub (e_h ea) hA0)) /\
      (if @fltb N (e_h e) h0
       then (e_h e, set_record_h (A := N) s nn e (@f0 N))
       else (h0, set_record_h (A := N) s nn e (@fsub N (e_h e) h0)))
      = (h, set_record_h (A := N) s nn e ((e_h e : Z) - h)) /\
      W 2 hA h /\ 0 <= h <= (e_h e : Z) /\
      h <= (body_soil s (k + 1) i j : Z) - body s (2 - k) i j /\
      rel 3 (if @fltb N (e_h e) h0 then set_record_h a nn ea f0
             else set_record_h a nn ea (fsub (e_h ea) hA0))
        (set_record_h (A := N) s nn e ((e_h e : Z) - h))).
    { assert (X : W 3 (fsub (e_h ea) hA0) (@fsub N (e_h e) h0)) by ww.
      assert (R3 : rel 3 a s) by (eapply rel_le; [|exact R]; lia).
      destruct (@fltb N (e_h e) h0) eqn:El.
      - exists (e_h ea), (e_h e). rewrite Z.sub_diag.
        assert (El' : (e_h e : Z) < h0) by (apply Z.ltb_lt; exact El).
        split; [reflexivity|]. split; [reflexivity|].
        split; [eapply W_le; [exact Eh|lia]|]. split; [lia|]. split; [unfold h0 in El'; cbn in El'; lia|].
        eapply rel_set_record_h; [exact R3|exact Re|apply W_0; lia].
      - exists hA0, h0.
        assert (El' : (h0 : Z) <= e_h e) by (apply Z.ltb_ge; exact El).
        split; [reflexivity|]. split; [reflexivity|]. split; [exact H0|].
        assert (0 <= (h0 : Z)) by (unfold h0; cbn; lia).
        split; [cbn in *; lia|]. split; [unfold h0; cbn; lia|].
        eapply rel_set_record_h; [exact R3|exact Re|exact X]. }
    destruct C as (hA & h & -> & -> & Wh & Hh & Hh0 & R3).
    cbv beta iota zeta.
    set (a1 := if @fltb N (e_h e) h0 then _ else _) in *.
    assert (Ea1 : body_soil a1 = body_soil a /\ rng a1 = rng a)
      by (unfold a1; destruct (@fltb N (e_h e) h0); auto).
    destruct Ea1 as (Ea1 & Ea2). rewrite Ea1.
    change (body_soil (set_record_h (A := N) s nn e ((e_h e : Z) - h))) with (body_soil s).
    set (a2 := set_bs a1 (k + 1) i j (fsub (body_soil a (k + 1) i j) hA)).
    set (s2 := set_bs (set_record_h (A := N) s nn e ((e_h e : Z) - h)) (k + 1) i j
      (@fsub N (body_soil s (k + 1) i j) h)).
    assert (R4 : rel 3 a2 s2).
    { unfold a2, s2. assert (W 3 (fsub (body_soil a (k + 1) i j) hA)
        (@fsub N (body_soil s (k + 1) i j) h)) by ww.
      apply rel_set_bs; auto. }
    destruct (take_over s nn e h Rd Hn Ea Ec1' ltac:(fold k i j; lia) Hh Hh0 (W_aligned _ _ _ Wh))
      as (Rd2 & Tt).
    fold k i j in Rd2, Tt.
    change (set_bs (A := N) _ (k + 1) i j _) with s2 in Rd2, Tt.
    assert (L2 : lim s2 h).
    { eapply lim_same; [| | | |exact Hl].
      - split; reflexivity.
      - intros k' i' j'; reflexivity.
      - lia.
      - intros i' j' Hg'. apply (proj1 (proj2 Hl)). exact Hg'. }
    destruct (ready_bounds _ _ Rd2 L2 ltac:(lia)) as (B1 & B2).
    pose proof (rel_one _ _ _ _ R4 B1) as R5.
    assert (W1 : W 1 hA h) by (eapply W_one; [exact Wh|lia]).
    replace (rng a2) with (rng s2) by (symmetry; eapply rel_rng; exact R5).
    destruct (shuffle dirs (rng s2)) as [dirs' r] eqn:Sh. apply shuffle_eq in Sh.
    assert (P' : Permutation dirs' directions8) by (rewrite Sh; auto).
    assert (Fd : Forall (fun d => In d directions8) dirs')
      by (apply Forall_forall; intros d Hd; eapply Permutation_in; eauto).
    assert (Rd3 : ready (set_rng s2 r)).
    { destruct Rd2 as (Q1 & Q2). split; [|exact Q2]. exact Q1. }
    eapply sync_bind.
    - apply explore_all_lock with (h' := h) (s := set_rng s2 r); auto; try lia.
      apply rel_set_rng; auto.
    - intros [a3 h3A] [s3 h3] Eq (R6 & W3 & L3). cbn [fst snd] in *.
      pose proof (explore_all_moves near cz (fr L frame) tz Htz k (2 - k) i j fuel dirs' Fd
        (set_rng s2 r) h Rd3 Hin ltac:(lia) (W_aligned _ _ _ Wh) Hf) as M.
      rewrite Eq in M. cbn [returns fst snd] in M.
      destruct M as (_ & _ & _ & _ & _ & _ & _ & _ & Hh3 & _).
      pose proof (lim_less _ _ 0 L3 ltac:(lia)) as L4.
      rewrite (W_gt_tol L _ _ _ W3). apply sync_ok.
      split; cbn [fst snd]; [|split; [reflexivity|]].
      + destruct (@fltb N tz h3); [apply rel_warn|]; exact R6.
      + destruct (@fltb N tz h3); exact L4.
  Qed.

  Lemma move_records_lock walk_fuel fuel : forall nn a s dirs,
    rel 1 a s -> lim s 0 -> ready s -> Permutation dirs directions8 ->
    nx s + ny s <= Z.of_nat walk_fuel ->
    sync (fun a s => rel 1 a s /\ lim s 0)
      (move_records frame tA fuel walk_fuel nn a dirs)
      (move_records (A := N) (fr L frame) tz fuel walk_fuel nn s dirs).
  Proof.
    induction fuel as [|fuel IH]; intros nn a s dirs R Hl Rd P Hf; cbn [move_records].
    all: pose proof (rel_nth _ _ _ _ nn R) as Hn.
    all: destruct (nth_error (records s) nn) as [e|] eqn:En;
      destruct (nth_error (records a) nn) as [ea|]; try tauto;
      try (apply sync_ok; auto).
    - exact I.
    - eapply sync_bind; [apply move_record_lock; eauto|].
      intros [a1 d1] [s1 d1'] Eq (R1 & Ed & L1). cbn [fst snd] in *. subst d1.
      pose proof (move_record_good near cz (fr L frame) tz tz_pos cz_tol walk_fuel s nn e dirs Rd En P Hf)
        as M.
      rewrite Eq in M. cbn [returns fst snd] in M. destruct M as ((Rd1 & ((D1 & D2) & _) & _) & P1).
      apply IH; auto. rewrite D1, D2. auto.
  Qed.

  (** The terrain under the body. *)
  Lemma spread_ring_lock i j pp dirs : forall a s h h',
    rel 1 a s -> W 1 h h' -> 0 <= (h' : Z) ->
    sync (fun p q => rel 2 (fst p) (fst q) /\ W 1 (snd p) (snd q) /\ raised s (fst q))
      (spread_ring tA dirs a i j pp h) (spread_ring (A := N) tz dirs s i j pp h').
  Proof.
    induction dirs as [|d dirs IH]; intros a s h h' R Wh Hh; cbn [spread_ring].
    - apply sync_ok. split; [eapply rel_le; [|exact R]; lia|]. split; auto. apply raised_refl.
    - set (ip := i + fst d * pp). set (jp := j + snd d * pp).
      rewrite (rel_inb _ _ _ _ _ _ R).
      apply sync_guard; [reflexivity|]. intros Hg. apply inb_grid in Hg.
      rewrite !(rel_body_absent _ _ _ _ _ _ _ R) by (auto; lia).
      assert (X0 : W 2 (fadd (terrain a ip jp) h) (@fadd N (terrain s ip jp) h')) by ww.
      assert (R2 : rel 2 a s) by (eapply rel_le; [|exact R]; lia).
      assert (Z0 : W 1 f0 (@f0 N)) by (apply W_0; lia).
      assert (Up : raised s (set_t (A := N) s ip jp (@fadd N (terrain s ip jp) h')))
        by (apply set_t_raised; intros _; cbn; lia).
      destruct (_ && _).
      { apply sync_ok. split; [apply rel_set_t; auto|]. split; auto. }
      set (bA := if body_absent s 0 ip jp then _ else _).
      set (bz := if body_absent s 0 ip jp then (body s 2 ip jp) else _).
      assert (Wb : WB bA bz).
      { unfold bA, bz. destruct (body_absent s 0 ip jp); [eapply rel_b; eauto; lia|].
        destruct (body_absent s 2 ip jp); [eapply rel_b; eauto; lia|].
        apply WB_min; eapply rel_b; eauto; lia. }
      assert (Wt : W 1 (terrain a ip jp) (terrain s ip jp)) by (eapply rel_t; eauto).
      rewrite (W_lt_add L 1 1 _ _ _ _ Wt (WB_W _ _ _ Wb) ltac:(lia)).
      destruct (@fltb N (@fadd N (terrain s ip jp) tz) bz) eqn:E1; [|apply IH; auto].
      assert (E1' : (terrain s ip jp : Z) + tz < bz) by (apply Z.ltb_lt; exact E1).
      assert (Wd : W 2 (fsub bA (terrain a ip jp)) (@fsub N bz (terrain s ip jp))).
      { clear R2. eapply W_le; [apply W_sub; [apply WB_W; exact Wb|exact Wt|lia]|lia]. }
      rewrite (W_lt L _ _ _ _ _ _ Wd Wh).
      destruct (@fltb N (@fsub N bz (terrain s ip jp)) h') eqn:E2.
      + assert (E2' : bz - (terrain s ip jp : Z) < (h' : Z)) by (apply Z.ltb_lt; exact E2).
        pose proof tz_pos.
        eapply sync_weaken.
        * apply IH.
          -- apply rel_set_t; auto. apply WB_W; auto.
          -- eapply W_one; [apply (W_sub L 1 2); [exact Wh|exact Wd|lia]|].
             destruct Wh as (_ & Wh). cbn in Wh |- *. lia.
          -- cbn. lia.
        * cbv beta. intros p q _ (Q1 & Q2 & Q3). split; auto. split; auto.
          eapply raised_trans; [|exact Q3]. apply set_t_raised. intros _. cbn. lia.
      + apply sync_ok. split; [apply rel_set_t; auto|]. split; auto.
  Qed.

  Lemma lim_spreads s h s' h' : spreads near cz (fr L frame) s h s' h' -> raised s s' ->
    lim s h -> lim s' h'.
  Proof.
    intros (_ & Dm & Be & _ & _ & _ & _ & _ & _ & Tt & _) Ra Hl.
    eapply lim_same; [exact Dm|exact Be| | |exact Hl]; [lia|].
    eapply raised_floored; [exact Ra|apply Hl].
  Qed.

  Lemma spread_lock i j dirs : Permutation dirs directions8 ->
    forall fuel a s h h' pp,
    rel 1 a s -> W 1 h h' -> lim s h' -> ready s ->
    (ring dirs (inside s) i j pp \/ (h' : Z) = 0) -> 0 <= (h' : Z) -> 0 <= pp ->
    sync (fun a1 s1 => rel 1 a1 s1 /\ raised s s1)
      (spread tA fuel dirs a i j pp h) (spread (A := N) tz fuel dirs s i j pp h').
  Proof.
    intros P.
    assert (Fd : Forall (fun d => In d directions8) dirs)
      by (apply Forall_forall; intros d Hd; eapply Permutation_in; eauto).
    induction fuel as [|fuel IH]; intros a s h h' pp R Wh Hl Rd Hr Hh Hpp; cbn [spread].
    all: rewrite (W_gt_tol L _ _ _ Wh).
    all: destruct (@fltb N tz h') eqn:E; [|apply sync_ok; split; auto; apply raised_refl].
    - exact I.
    - assert (E' : tz < (h' : Z)) by (apply Z.ltb_lt; exact E).
      pose proof tz_pos as Htz.
      assert (Hr' : ring dirs (on_grid s) i j (pp + 1))
        by (apply ring_next; auto; destruct Hr; [auto|lia]).
      eapply sync_bind; [apply spread_ring_lock; eauto|].
      intros [a1 h1A] [s1 h1] Eq (R1 & W1 & Ra). cbn [fst snd] in *.
      pose proof (spread_ring_spreads near cz (fr L frame) tz Htz i j (pp + 1) dirs ltac:(lia) Fd
        s h' Rd Hr' Hh (W_aligned _ _ _ Wh)) as M.
      rewrite Eq in M. cbn [returns fst snd] in M. destruct M as (P1 & P2 & P3).
      pose proof P1 as (Rd1 & Dm & _ & _ & _ & _ & _ & _ & _ & _ & Hh1 & Ah1 & _).
      pose proof (lim_spreads _ _ _ _ P1 Ra Hl) as Hl1.
      destruct (ready_bounds _ _ Rd1 Hl1 ltac:(lia)) as (B1 & B2).
      pose proof (rel_one _ _ _ _ R1 B1) as R1'.
      eapply sync_weaken.
      + apply IH; eauto; try lia.
        destruct P3 as [P3|P3]; [left|auto].
        eapply Forall_impl; [|exact P3]. intros d. apply inside_dims; auto.
      + cbv beta. intros a2 s2 _ (Q1 & Q2). split; auto. eapply raised_trans; eauto.
  Qed.

  Lemma locate_intersecting_lock a s : rel 1 a s ->
    locate_intersecting_cells tA a = locate_intersecting_cells (A := N) tz s.
  Proof.
    intros R. unfold locate_intersecting_cells.
    rewrite (rel_body_area _ _ _ _ R).
    match goal with |- for_each _ ?f _ = for_each _ ?f' _ =>
      enough (E : forall l acc, for_each l f acc = for_each l f' acc) by apply E
    end.
    induction l as [|[i j] l IH]; intros acc; auto.
    cbn [for_each]. rewrite (rel_inb _ _ _ _ _ _ R).
    destruct (inb s i j) eqn:Hg; cbn [guard bind]; auto. apply inb_grid in Hg.
    rewrite !(rel_body_present _ _ _ _ _ _ _ R) by (auto; lia).
    wtests L. apply IH.
  Qed.
End LockIntersect.

Section LockIntersectBody.
  Context {A : Num}.
  Variable L : locked A.
  Local Notation N := (ZNum (exact L)).
  Local Notation W := (W L).
  Local Notation WB := (WB L).
  Local Notation rel := (rel L).
  Variables Lb T : Z.
  Local Notation lim := (lim (upm := exact L) (l_H L) Lb T (l_K L)).
  Variable near : Pos N -> Prop.
  Variable frame : Z -> Z -> F A -> Pos A.
  Local Notation tA := (l_tA L).
  Local Notation tz := (l_tz L).
  Local Notation cz := (l_cz L).
  Local Notation ready := (ready near cz (fr L frame)).
  Local Notation terrain_inv := (terrain_inv near cz (fr L frame)).

  (** The soil that is spread is still counted where it was. *)
  Definition roomy (s : sim N) : Prop :=
    2 * (l_H L + Lb + T + nx s * ny s * Lb) <= l_K L.

  Lemma lim_double s h : consistent near cz s (records s) -> lim s 0 -> roomy s ->
    (exists i j, on_grid s i j /\ h <= (terrain s i j : Z) + l_H L) -> 0 <= h ->
    LockBound.lim (upm := exact L) (l_H L) Lb (2 * T + nx s * ny s * Lb + l_H L) (l_K L) s h /\
    h <= l_K L.
  Proof.
    intros Hc Hl Hr (i & j & Hg & Hh) H0.
    pose proof Hl as (C & Fl & (R1 & R2 & R3) & Tt).
    pose proof Hc as (N1 & N2 & _).
    assert (HP : 0 <= nx s * ny s * Lb)
      by (apply Z.mul_nonneg_nonneg; [apply Z.mul_nonneg_nonneg|]; lia).
    assert (Hb : (terrain s i j : Z) <= T + nx s * ny s * Lb).
    { pose proof (lim_bounds (l_H L) Lb T (l_H L + Lb + T + nx s * ny s * Lb) near cz s
        (records s) 0 Hc) as B.
      destruct Hc as (_ & _ & Hc & Hrec).
      pose proof (rec_ok_nonneg near cz s _ Hrec) as Hn.
      assert (SH : forall k i j, on_grid s i j -> layer k -> 0 <= soil_height s k i j).
      { intros k i' j' Hg' Hk. destruct (Hc i' j' Hg') as (_ & _ & Hs).
        destruct (Hs k Hk) as (_ & ->). apply recorded_nonneg; auto. }
      pose proof (sum2_one (nx s) (ny s) (soil_at s) Lb i j ltac:(apply Hg) ltac:(apply Hg)
        ltac:(lia)) as S1.
      assert (S2 : soil_at s i j <= sum2 (nx s) (ny s) (soil_at s) + nx s * ny s * Lb).
      { apply S1. intros i' j' Hi' Hj'. unfold soil_at.
        pose proof (SH 0 i' j' (conj Hi' Hj') (or_introl eq_refl)).
        pose proof (SH 2 i' j' (conj Hi' Hj') (or_intror eq_refl)).
        pose proof (Fl i' j' (conj Hi' Hj')). lia. }
      pose proof (SH 0 i j Hg (or_introl eq_refl)).
      pose proof (SH 2 i j Hg (or_intror eq_refl)).
      unfold soil_at at 1 in S2. unfold total_soil in Tt. lia. }
    unfold roomy in Hr.
    split; [|lia].
    split; [auto|]. split; [auto|]. split; [split; [auto|split; lia]|lia].
  Qed.

  Definition moved_cells (p : sim A * list (Z * Z)) (q : sim N * list (Z * Z)) : Prop :=
    rel 1 (fst p) (fst q) /\ snd p = snd q /\ floored Lb (fst q).

  Lemma move_terrain_cell_lock fuel s0 c rest p q :
    lim s0 0 -> roomy s0 -> nx s0 <= Z.of_nat fuel ->
    moved_cells p q -> terrain_inv s0 (c :: rest) q ->
    sync moved_cells (move_terrain_cell tA fuel c p)
      (move_terrain_cell (A := N) tz fuel c q).
  Proof.
    destruct p as [a da], q as [s dirs], c as [[ind i] j].
    intros Hl0 Hr Hf (R & Ed & Hfl) Inv. cbn [fst snd] in *. subst da.
    pose proof (move_terrain_cell_good near cz (fr L frame) tz (tz_pos L) (cz_tol L) fuel s0
      (ind, i, j) rest (s, dirs) Hf Inv) as Good.
    unfold move_terrain_cell in *.
    pose proof Inv as (Rd & Fl & _ & _ & P & Fa & _).
    pose proof Fl as ((Dm & Be & _ & _ & Tt) & _ & _).
    inversion Fa as [|x l Hx Frest]; subst x l. destruct Hx as (Hk & Hin0 & _).
    assert (Hin : inside s i j) by (eapply inside_dims; eauto).
    assert (Hg : on_grid s i j) by (unfold inside, on_grid in *; lia).
    assert (Hk4 : 0 <= ind < 4) by (unfold layer in Hk; lia).
    assert (Hl : lim s 0).
    { eapply lim_same; [exact Dm|exact Be| |exact Hfl|exact Hl0]. lia. }
    assert (Hr' : roomy s) by (unfold roomy in *; destruct Dm as (-> & ->); exact Hr).
    assert (Wb : WB (body a ind i j) (body s ind i j)) by (eapply rel_b; eauto).
    assert (Wt : W 1 (terrain a i j) (terrain s i j)) by (eapply rel_t; eauto).
    rewrite (W_lt_sub L _ _ _ _ _ Wt Wb ltac:(lia)).
    destruct (@fltb N (@fsub N (terrain s i j) tz) (body s ind i j)) eqn:E.
    { apply sync_ok. split; [|split]; auto. }
    assert (E' : (body s ind i j : Z) <= terrain s i j - tz) by (apply Z.ltb_ge; exact E).
    pose proof (tz_pos L) as Htz.
    replace (rng a) with (rng s) by (symmetry; eapply rel_rng; exact R).
    destruct (shuffle dirs (rng s)) as [dirs' r] eqn:Sh. apply shuffle_eq in Sh.
    assert (P' : Permutation dirs' directions8) by (rewrite Sh; auto).
    set (h := @fsub N (terrain s i j) (body s ind i j)) in *.
    assert (Hh : 0 <= (h : Z)) by (unfold h; cbn; lia).
    assert (Wh : W 2 (fsub (terrain a i j) (body a ind i j)) h).
    { eapply W_le; [apply W_sub; [exact Wt|apply WB_W; exact Wb|lia]|lia]. }
    assert (Rd1 : ready (set_rng s r)) by (destruct Rd as (Q1 & Q2); split; [exact Q1|exact Q2]).
    destruct (lim_double s h (proj1 Rd) Hl Hr') as (L2 & L3); auto.
    { exists i, j. split; auto. pose proof (proj1 Hl ind i j Hk4 Hg). unfold h. cbn. lia. }
    eapply sync_bind.
    - apply (spread_lock L Lb (2 * T + nx s * ny s * Lb + l_H L) near frame i j dirs' P') with
        (s := set_rng s r) (h' := h).
      + apply rel_set_rng; auto.
      + eapply W_one; [exact Wh|]. lia.
      + exact L2.
      + exact Rd1.
      + left. apply Forall_forall. intros d _. rewrite !Z.mul_0_r, !Z.add_0_r. exact Hin.
      + exact Hh.
      + lia.
    - intros a1 s1 Eq (R1 & Ra).
      rewrite Eq in Good. cbn [bind returns] in Good.
      destruct Good as (_ & ((D2 & B2 & _ & _ & T2) & _) & _).
      assert (Eb : (body s1 ind i j : Z) = body s ind i j).
      { change (body s1) with (body (set_t (A := N) s1 i j (body s1 ind i j))).
        rewrite B2, Be. reflexivity. }
      assert (Hg1 : on_grid s1 i j).
      { destruct Ra as ((E1 & E2) & _). unfold on_grid in *. rewrite E1, E2. exact Hg. }
      assert (Wb1 : WB (body a1 ind i j) (body s1 ind i j)) by (eapply rel_b; eauto).
      apply sync_ok. split; [|split; [reflexivity|]]; cbn [fst snd].
      + apply rel_set_t; auto. apply WB_W; auto.
      + intros i' j' Hg'. cbn in Hg'. upds.
        pose proof (raised_floored Lb _ _ Ra Hfl i' j' Hg') as F1.
        pose proof (proj1 Hl ind i j Hk4 Hg) as F2.
        pose proof (proj1 (proj1 (proj2 (proj2 Hl)))) as F3.
        eqbs; auto. rewrite Eb. lia.
  Qed.

  Lemma move_intersecting_lock fuel a s :
    rel 1 a s -> lim s 0 -> roomy s ->
    ready s -> body_covered s -> area_in s (body_area s) ->
    nx s + ny s <= Z.of_nat fuel ->
    (records_fuel s (length (records s)) <= fuel)%nat ->
    sync (fun a s => rel 1 a s /\ lim s 0)
      (move_intersecting_cells frame tA fuel a)
      (move_intersecting_cells (A := N) (fr L frame) tz fuel s).
  Proof.
    intros R Hl Hr Rd Hc Ha Hf Hf2. unfold move_intersecting_cells.
    pose proof (tz_pos L) as Htz. pose proof (cz_tol L) as Hcz.
    pose proof Rd as [(N1 & N2 & _) _].
    eapply sync_bind.
    - apply (move_records_lock L Lb T near frame fuel fuel 0 a s directions8); auto.
    - intros a1 s1 Eq (R1 & L1).
      pose proof (move_intersecting_body_soil_good near cz (fr L frame) tz Htz Hcz fuel s Rd Hf Hf2) as M.
      rewrite Eq in M. cbn [returns] in M. destruct M as (Rd1 & Q1 & _ & _).
      pose proof Q1 as (Dm & Be & E3 & E4 & E5).
      assert (Hr1 : roomy s1) by (unfold roomy in *; destruct Dm as (-> & ->); exact Hr).
      assert (Hc1 : body_covered s1).
      { intros k i j Hg Hk Hb. rewrite E3. apply (Hc k).
        - destruct Dm as [E1 E2]. unfold on_grid in *. rewrite <- E1, <- E2. auto.
        - auto.
        - unfold body_at in *. rewrite !Be in Hb. auto. }
      assert (Ha1 : area_in s1 (body_area s1)).
      { rewrite E3. destruct Dm as [E1 E2]. unfold area_in in *. rewrite E1, E2. auto. }
      assert (Hf1 : nx s1 <= Z.of_nat fuel) by (destruct Dm as [-> _]; lia).
      unfold move_intersecting_body.
      rewrite (locate_intersecting_lock L a1 s1 R1).
      pose proof (locate_intersecting_cells_good near cz (fr L frame) tz Htz Hcz s1 Rd1 Hc1 Ha1) as Lo.
      destruct (locate_intersecting_cells (A := N) tz s1) as [cells| |]; cbn [returns bind] in *; try tauto.
      destruct Lo as (Hcells & Hall).
      assert (I0 : terrain_inv s1 cells (s1, directions8)).
      { split; [auto|]. split; [apply flows_refl|]. split; [intros k i j; auto|].
        split; [auto|]. split; [auto|]. split; [|auto].
        eapply Forall_impl; [|exact Hcells]. intros [[k i] j] (A1 & A2 & A3 & _). auto. }
      pose proof (for_each_returns_rest (move_terrain_cell (A := N) tz fuel) (terrain_inv s1) cells) as Lp.
      eapply sync_bind.
      + apply (sync_for_each_rest moved_cells (terrain_inv s1)).
        * intros c r p q Hm Inv. eapply move_terrain_cell_lock; eauto.
        * intros c r q Inv. apply returns_partial. apply move_terrain_cell_good; auto.
        * split; [exact R1|]. split; [reflexivity|]. apply L1.
        * exact I0.
      + intros [a2 d2] [s2 d2'] Eq2 (R2 & _ & F2). cbn [fst snd] in *.
        specialize (Lp (fun c r q Inv => move_terrain_cell_good near cz (fr L frame) tz Htz Hcz
          fuel s1 c r q Hf1 Inv) _ I0).
        rewrite Eq2 in Lp. cbn [returns] in Lp.
        destruct Lp as (_ & ((D2 & B2 & _ & _ & T2) & _) & _).
        apply sync_ok. split; [exact R2|].
        eapply lim_same; [exact D2|exact B2| |exact F2|exact L1]. lia.
  Qed.

  Lemma move_intersecting_both fuel a s :
    rel 1 a s -> lim s 0 -> roomy s ->
    ready s -> body_covered s -> area_in s (body_area s) ->
    nx s + ny s <= Z.of_nat fuel ->
    (records_fuel s (length (records s)) <= fuel)%nat ->
    both (fun a' s' => rel 1 a' s' /\ lim s' 0 /\ good near cz (fr L frame) s' (records s') /\
            quiet s s' /\ loses s s')
      (move_intersecting_cells frame tA fuel a)
      (move_intersecting_cells (A := N) (fr L frame) tz fuel s).
  Proof.
    intros R Hl Hr Rd Hc Ha Hf Hf2.
    eapply both_weaken.
    - apply both_intro; [apply move_intersecting_lock; eauto|].
      apply (move_intersecting_cells_good near cz (fr L frame) tz (tz_pos L) (cz_tol L)); auto.
    - cbv beta. tauto.
  Qed.
End LockIntersectBody.
