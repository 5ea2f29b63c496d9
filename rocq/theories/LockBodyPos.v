(** The position of the body in the two runs side by side (see LockBase.v). *)
From Coq Require Import ZArith List Bool Lia.
From Verif Require Import Outcome Num State ModelBodyPos Base Spec LockBase.
Import ListNotations.
Open Scope Z_scope.

Section LockBodyPos.
  Context {A : Num}.
  Variable L : locked A.
  Local Notation N := (ZNum (exact L)).
  Variable n : Z.
  Variables (g : grid_t A) (g' : grid_t N).
  Hypothesis G : relg L g g'.

  Lemma WB_0 : WB L f0 (@f0 N).
  Proof.
    split; [apply l_0|]. split; [symmetry; apply l_phi0|]. pose proof (l_HK _ L). cbn. lia.
  Qed.

  Lemma sync_W_min m a b x y : W L m a x -> W L m b y -> W L m (fmin a b) (fmin (A := N) x y).
  Proof.
    intros H1 H2. unfold fmin. rewrite (W_lt L m m _ _ _ _ H2 H1).
    destruct (@fltb N y x); auto.
  Qed.

  Lemma clear_body_lock a s : rel L n a s ->
    sync (rel L n) (clear_body a) (clear_body s).
  Proof.
    intros R. unfold clear_body. rewrite (rel_body_area _ _ _ _ R).
    apply sync_for_each with (I := fun _ => True); auto.
    - clear. intros [i j] a1 s1 _ R _. apply sync_guard; [eapply rel_inb; eauto|].
      intros _. apply sync_ok. repeat (apply rel_set_b; [|apply WB_0]). auto.
    - intros [i j] s' _ _. unfold guard. destruct (inb s' i j); cbn; auto.
  Qed.

  Lemma layer_status_lock a s k i j lo lo' hi hi' :
    rel L n a s -> on_grid s i j -> 0 <= k < 3 -> WB L lo lo' -> WB L hi hi' ->
    layer_status (l_tA L) a k i j lo hi =
    layer_status (A := N) (l_tz L) s k i j lo' hi'.
  Proof.
    intros R Hg Hk Hlo Hhi. unfold layer_status. cbv zeta.
    rewrite (rel_body_absent _ _ _ _ _ _ _ R Hk Hg).
    assert (B0 := rel_b _ _ _ _ R k i j ltac:(lia) Hg).
    assert (B1 := rel_b _ _ _ _ R (k + 1) i j ltac:(lia) Hg).
    rewrite (W_lt_sub L 1 _ _ _ _ (WB_W _ _ _ Hlo) B0 ltac:(lia)).
    rewrite (W_gt_add L 1 _ _ _ _ (WB_W _ _ _ Hhi) B0 ltac:(lia)).
    rewrite (W_lt_sub L 1 _ _ _ _ (WB_W _ _ _ Hlo) B1 ltac:(lia)).
    rewrite (W_gt_add L 1 _ _ _ _ (WB_W _ _ _ Hhi) B1 ltac:(lia)).
    rewrite (W_gt_add L 1 _ _ _ _ (WB_W _ _ _ Hlo) B0 ltac:(lia)).
    rewrite (W_lt_sub L 1 _ _ _ _ (WB_W _ _ _ Hhi) B1 ltac:(lia)).
    reflexivity.
  Qed.

  Lemma include_lock a s i j lo lo' hi hi' :
    rel L n a s -> WB L lo lo' -> WB L hi hi' ->
    sync (rel L n) (include_new_body_pos (l_tA L) a i j lo hi)
      (include_new_body_pos (A := N) (l_tz L) s i j lo' hi').
  Proof.
    intros R Hlo Hhi. unfold include_new_body_pos.
    apply sync_guard; [eapply rel_inb; eauto|]. intros Hg. apply inb_grid in Hg.
    rewrite (layer_status_lock a s 0 i j lo lo' hi hi') by (auto; lia).
    rewrite (layer_status_lock a s 2 i j lo lo' hi hi') by (auto; lia).
    destruct (layer_status (A := N) (l_tz L) s 0 i j lo' hi') as [st0|]; [|apply sync_ok; auto].
    destruct (layer_status (A := N) (l_tz L) s 2 i j lo' hi') as [st1|]; [|apply sync_ok; auto].
    apply sync_ok. cbv zeta.
    assert (B : forall k, 0 <= k < 4 -> WB L (body a k i j) (body s k i j))
      by (intros k Hk; apply (rel_b _ _ _ _ R); auto).
    assert (B0 := B 0 ltac:(lia)). assert (B1 := B 1 ltac:(lia)).
    assert (B2 := B 2 ltac:(lia)). assert (B3 := B 3 ltac:(lia)).
    assert (Z0 := WB_0).
    destruct ((st0 =? 1) && (st1 =? 1)).
    { repeat apply rel_set_b; auto; repeat (apply WB_min || apply WB_max); auto. }
    destruct (st0 =? 1).
    { repeat apply rel_set_b; auto; repeat (apply WB_min || apply WB_max); auto. }
    destruct (st1 =? 1).
    { repeat apply rel_set_b; auto; repeat (apply WB_min || apply WB_max); auto. }
    destruct (st0 =? 0); [repeat apply rel_set_b; auto|].
    destruct (st1 =? 0); [repeat apply rel_set_b; auto|].
    assert (D : forall u v x y, WB L u x -> WB L v y -> W L 2 (fabs (fsub u v)) (@fabs N (@fsub N x y))).
    { intros u v x y H1 H2. apply W_abs. apply (W_sub L 1 1); try apply WB_W; auto. lia. }
    assert (D0 := D _ _ _ _ B0 Hhi). assert (D1 := D _ _ _ _ Hlo B1).
    assert (D2 := D _ _ _ _ B2 Hhi). assert (D3 := D _ _ _ _ Hlo B3).
    rewrite (W_lt L 2 2 _ _ _ _ (sync_W_min 2 _ _ _ _ D0 D1) (sync_W_min 2 _ _ _ _ D2 D3)).
    rewrite (W_lt L 2 2 _ _ _ _ D0 D1), (W_lt L 2 2 _ _ _ _ D2 D3).
    repeat match goal with |- context [if ?b then _ else _] => destruct b end;
      apply rel_set_b; auto.
  Qed.

  Lemma z_ok_lock k : z_ok g k = z_ok g' k.
  Proof. unfold z_ok. rewrite (rg_z _ _ _ G). reflexivity. Qed.
  Lemma z_ok_range k : z_ok g' k = true -> 0 <= k <= 2 * half_z g'.
  Proof. unfold z_ok. rewrite andb_true_iff, Z.leb_le, Z.ltb_lt. lia. Qed.
  Lemma z_bot_lock k : z_ok g' k = true -> WB L (z_bot g k) (z_bot g' k).
  Proof. intros Hk. apply (rg_bot _ _ _ G). apply z_ok_range; auto. Qed.
  Lemma z_top_lock k : z_ok g' k = true -> WB L (z_top g k) (z_top g' k).
  Proof. intros Hk. apply (rg_top _ _ _ G). apply z_ok_range; auto. Qed.

  Lemma update_body_loop_lock l : forall a s i j lo lo' hi hi',
    rel L n a s -> WB L lo lo' -> WB L hi hi' ->
    sync (rel L n) (update_body_loop g (l_tA L) l a i j lo hi)
      (update_body_loop (A := N) g' (l_tz L) l s i j lo' hi').
  Proof.
    induction l as [|[[i' j'] k] l IH]; intros a s i j lo lo' hi hi' R Hlo Hhi;
      cbn [update_body_loop].
    - apply include_lock; auto.
    - destruct (negb (i =? i') || negb (j =? j')).
      + eapply sync_bind; [apply include_lock; eauto|]. intros a1 s1 _ R1.
        apply sync_guard; [apply z_ok_lock|]. intros Hk.
        apply IH; auto; [apply z_bot_lock|apply z_top_lock]; auto.
      + apply sync_guard; [apply z_ok_lock|]. intros Hk.
        apply IH; auto. apply z_top_lock; auto.
  Qed.

  Lemma update_body_lock l a s : rel L n a s ->
    sync (rel L n) (update_body g (l_tA L) l a) (update_body (A := N) g' (l_tz L) l s).
  Proof.
    intros R. unfold update_body. destruct l as [|[[i j] k] l]; [exact I|].
    apply sync_guard; [apply z_ok_lock|]. intros Hk.
    apply update_body_loop_lock; auto; [apply z_bot_lock|apply z_top_lock]; auto.
  Qed.

  Theorem calc_body_pos_lock ar walls a s : rel L n a s ->
    sync (rel L n) (calc_body_pos g (l_tA L) ar walls a)
      (calc_body_pos (A := N) g' (l_tz L) ar walls s).
  Proof.
    intros R. unfold calc_body_pos.
    eapply sync_bind; [apply clear_body_lock; auto|]. intros a1 s1 _ R1.
    apply sync_for_each with (I := fun _ => True); auto.
    - intros w a2 s2 _ R2 _. apply update_body_lock; auto.
    - intros w s2 _ _. destruct (update_body (A := N) g' (l_tz L) (sort3 w) s2); cbn; auto.
    - apply rel_set_body_area; auto.
  Qed.
End LockBodyPos.
