(** The soil carried by the body in the two runs side by side (see LockBase.v). *)
From Coq Require Import ZArith List Bool Lia.
From Verif Require Import Outcome Num State ModelRelax ModelBodySoil Base Spec InvBase
  RelaxBase BodySoilProofs LockBase LockBound LockRelax LockRelaxLoop.
Import ListNotations.
Open Scope Z_scope.

(** The same place. *)
Definition remapped {A} (L : locked A) (r : reloc A) : reloc (ZNum (exact L)) :=
  mkReloc (A := ZNum (exact L)) (r_sx r) (r_sy r) (r_xmain r) (r_i r) (r_j r) (r_z r).
Definition remap {A} (L : locked A) (relocate : Pos A -> outcome (reloc A))
  (x : Pos (ZNum (exact L))) : outcome (reloc (ZNum (exact L))) :=
  r <- relocate x ;; Ok (remapped L r).

Section LockBodySoil.
  Context {A : Num}.
  Variable L : locked A.
  Local Notation N := (ZNum (exact L)).
  Local Notation tA := (l_tA L).
  Local Notation tz := (l_tz L).
  Variables (g : grid_t A) (g' : grid_t N).
  Hypothesis G : relg L g g'.
  Variable relocate : Pos A -> outcome (reloc A).
  Variables Lb T : Z.
  Variable near : Pos N -> Prop.
  Local Notation lim := (lim (upm := exact L) (l_H L) Lb T (l_K L)).
  Local Notation cz := (cell_z g').

  Definition relb (s : sim N) (a : best_t (A := A)) (b : best_t (A := N)) : Prop :=
    fst a = fst b /\ l_Vd L (snd a) (snd b) /\
    match fst b with
    | Some (i, j, ind) => on_grid s i j /\ (ind = 1 \/ ind = 3)
    | None => True
    end.

  Lemma f_dist_lock a s k i j z : rel L 1 a s -> on_grid s i j -> 0 <= k < 4 -> l_okh L z ->
    fltb (f_dist z (body a k i j)) (fadd (cell_z g) tA) =
      @fltb N (@f_dist N z (body s k i j)) (@fadd N cz tz) /\
    forall c d, l_Vd L c d ->
      fltb (f_dist z (body a k i j)) c = @fltb N (@f_dist N z (body s k i j)) d /\
      (@fltb N (@f_dist N z (body s k i j)) d = true ->
       l_Vd L (f_dist z (body a k i j)) (@f_dist N z (body s k i j))).
  Proof.
    intros R Hg Hk Hz. pose proof (rel_b _ _ _ _ R k i j Hk Hg) as (H1 & H2 & H3).
    pose proof (l_aligned _ L _ _ H1) as HA. rewrite H2, (rg_cA _ _ _ G), (rg_cz _ _ _ G).
    split.
    - exact (l_near _ L z _ Hz H3 HA).
    - intros c d Hd. pose proof (l_closer _ L z _ c d Hz H3 HA Hd) as [C1 C2].
      split; [exact C1|]. intros E. apply C2. apply Z.ltb_lt. exact E.
  Qed.

  Lemma try_layer_lock a s k i j z b b' : rel L 1 a s -> on_grid s i j -> k = 0 \/ k = 2 ->
    l_okh L z -> relb s b b' ->
    fst (try_layer g tA a k i j z b) = fst (try_layer (A := N) g' tz s k i j z b') /\
    relb s (snd (try_layer g tA a k i j z b)) (snd (try_layer (A := N) g' tz s k i j z b')).
  Proof.
    intros R Hg Hk Hz (B1 & B2 & B3). unfold try_layer.
    rewrite (rel_body_present L 1 a s k i j R ltac:(lia) Hg).
    pose proof (f_dist_lock a s (k + 1) i j z R Hg ltac:(lia) Hz) as [D1 D2].
    destruct (D2 _ _ B2) as [D3 D4]. cbv zeta. rewrite D1, D3.
    destruct (body_present s k i j); [|repeat split; auto].
    destruct (@fltb N _ (@fadd N cz tz)); [repeat split; auto|].
    destruct (@fltb N _ (snd b')) eqn:E; [|repeat split; auto].
    split; [reflexivity|]. split; [reflexivity|]. split; [apply D4; auto|].
    cbn. split; [auto|]. lia.
  Qed.

  Definition relf (s : sim N) (a : option (Z * Z * Z) * best_t (A := A))
    (b : option (Z * Z * Z) * best_t (A := N)) : Prop :=
    fst a = fst b /\ relb s (snd a) (snd b) /\
    match fst b with
    | Some (i, j, k) => on_grid s i j /\ (k = 0 \/ k = 2)
    | None => True
    end.

  Lemma find_wall_lock a s r dirs : rel L 1 a s -> l_okh L (r_z r) ->
    forall b b', relb s b b' ->
    sync (relf s) (find_wall g tA a r dirs b)
      (find_wall (A := N) g' tz s (remapped L r) dirs b').
  Proof.
    intros R Hz. induction dirs as [|d dirs IH]; intros b b' B; cbn [find_wall].
    { apply sync_ok. repeat split; auto; apply B. }
    cbv zeta. cbn [r_i r_j r_z remapped].
    apply sync_guard; [eapply rel_inb; eauto|]. intros Hg. apply inb_grid in Hg.
    pose proof (try_layer_lock a s 0 _ _ _ _ _ R Hg (or_introl eq_refl) Hz B) as [T1 T2].
    destruct (try_layer g tA a 0 _ _ _ b) as [h1 b1].
    destruct (try_layer (A := N) g' tz s 0 _ _ _ b') as [h1' b1'].
    cbn [fst snd] in T1, T2. subst h1'. destruct h1.
    { apply sync_ok. repeat split; auto; try apply T2; apply Hg. }
    pose proof (try_layer_lock a s 2 _ _ _ _ _ R Hg (or_intror eq_refl) Hz T2) as [T3 T4].
    destruct (try_layer g tA a 2 _ _ _ b1) as [h2 b2].
    destruct (try_layer (A := N) g' tz s 2 _ _ _ b1') as [h2' b2'].
    cbn [fst snd] in T3, T4. subst h2'. destruct h2.
    { apply sync_ok. repeat split; auto; try apply T4; apply Hg. }
    apply IH; auto.
  Qed.

  Lemma drop_on_lock a s k i j p h h' : rel L 1 a s -> on_grid s i j -> k = 0 \/ k = 2 ->
    W L 1 h h' -> rel L 4 (drop_on a k i j p h) (drop_on (A := N) s k i j p h').
  Proof.
    intros R Hg Hk Hh. unfold drop_on. cbv zeta.
    pose proof (rel_b _ _ _ _ R (k + 1) i j ltac:(lia) Hg) as B1.
    pose proof (rel_bs _ _ _ _ R (k + 1) i j ltac:(lia) Hg) as B2.
    pose proof (rel_bs _ _ _ _ R k i j ltac:(lia) Hg) as B3.
    assert (E1 : W L 4
      (fadd (body_soil a (k + 1) i j) (fadd (fsub (body a (k + 1) i j) (body_soil a k i j)) h))
      (@fadd N (body_soil s (k + 1) i j)
         (@fadd N (@fsub N (body s (k + 1) i j) (body_soil s k i j)) h'))).
    { apply (W_add L 1 3); auto; [|lia]. apply (W_add L 2 1); auto; [|lia].
      apply (W_sub L 1 1); auto; [|lia]. apply WB_W; auto. }
    apply rel_push.
    - apply rel_set_bs; [|eapply W_le; [apply WB_W; exact B1|lia]].
      apply rel_set_bs; [|exact E1]. eapply rel_le; [|exact R]. lia.
    - apply relr_mk. eapply W_le; [exact Hh|lia].
  Qed.

  Lemma tz_half : 2 * tz < cz.
  Proof. rewrite (rg_cz _ _ _ G). apply l_half. Qed.

  Lemma update_record_lock a s e e' : rel L 1 a s -> relr L 1 e e' ->
    (forall r, relocate (e_pos e) = Ok r -> l_okh L (r_z r)) ->
    sync (rel L 4) (update_record g tA relocate e a)
      (update_record (A := N) g' tz (remap L relocate) e' s).
  Proof.
    intros R (E1 & E2 & E3 & E4 & E5) Hok. unfold update_record.
    assert (B : f_below (e_h e) (cell_z g) = @f_below N (e_h e') cz).
    { destruct E5 as [V1 V2]. rewrite (rg_cA _ _ _ G), (rg_cz _ _ _ G).
      apply (l_below _ L); auto. lia. }
    rewrite B. destruct (@f_below N (e_h e') cz).
    { apply sync_ok. eapply rel_le; [|exact R]. lia. }
    cbv zeta.
    assert (Hh : W L 1 (f_snap (e_h e) (cell_z g)) (@f_snap N (e_h e') cz)).
    { destruct E5 as [V1 V2].
      assert (E : @f_snap N (e_h e') cz = e_h e').
      { cbn. apply round_aligned with (tol := tz); [apply l_tz_pos|apply tz_half|].
        unfold aligned. rewrite (rg_cz _ _ _ G). apply (l_aligned _ L _ _ V1). }
      rewrite E. split; [|auto]. rewrite (rg_cA _ _ _ G). apply (l_snap _ L); auto. lia. }
    set (h := f_snap (e_h e) (cell_z g)) in *. set (h' := @f_snap N (e_h e') cz) in *.
    clearbody h h'. unfold remap. rewrite <- E4.
    destruct (relocate (e_pos e)) as [r| |] eqn:Er; cbn [bind]; [|exact I|exact I].
    specialize (Hok r eq_refl).
    eapply sync_bind; [apply find_wall_lock; auto|].
    { split; [reflexivity|]. split; [|exact I]. apply (rg_far _ _ _ G). }
    cbv beta. intros [hit b] [hit' b'] Ef (F1 & (F2 & F3 & F4) & F5). cbn [fst snd] in *. subst hit.
    destruct hit' as [[[i j] k]|].
    { apply sync_ok. destruct F5 as [F5 F6]. apply drop_on_lock; auto. }
    assert (Fe : feqb (snd b) (f_of_Z (2 * half_z g)) =
      @feqb N (snd b') (@f_of_Z N (2 * half_z g'))).
    { exact (l_same _ L _ _ _ _ F3 (rg_far _ _ _ G)). }
    rewrite Fe. destruct (negb (@feqb N (snd b') (@f_of_Z N (2 * half_z g')))).
    - rewrite F2. destruct (fst b') as [[[i j] ind]|]; [|exact I].
      apply sync_ok. destruct F4 as [F4 F6]. apply drop_on_lock; auto. lia.
    - cbn [r_i r_j remapped]. apply sync_guard; [eapply rel_inb; eauto|].
      intros Hg. apply inb_grid in Hg. apply sync_ok.
      apply rel_warn. apply rel_set_t; [eapply rel_le; [|exact R]; lia|].
      eapply W_le; [apply (W_add L 1 1); [apply (rel_t _ _ _ _ R); auto|auto|lia]|lia].
  Qed.

  Lemma update_record_raised reloc' (s : sim N) (e : rec_t N) : 0 <= (e_h e : Z) -> aligned cz (e_h e) ->
    partial (update_record (A := N) g' tz reloc' e s) (raised s).
  Proof.
    intros Hh Ha. unfold update_record.
    destruct (@f_below N (e_h e) cz); [apply raised_refl|].
    assert (E : @f_snap N (e_h e) cz = e_h e).
    { cbn. apply round_aligned with (tol := tz); auto; [apply l_tz_pos|apply tz_half]. }
    rewrite E. cbv zeta.
    destruct (reloc' (e_pos e)) as [r| |]; cbn [bind]; try exact I.
    destruct (find_wall (A := N) g' tz s r _ _) as [[hit b]| |]; cbn [bind]; try exact I.
    destruct hit as [[[i j] k]|].
    { split; [split; reflexivity|]. intros; apply Z.le_refl. }
    destruct (negb _).
    - destruct (fst b) as [[[i j] k]|]; [|exact I].
      split; [split; reflexivity|]. intros; apply Z.le_refl.
    - unfold guard. destruct (inb s (r_i r) (r_j r)); cbn; auto.
      apply (set_t_raised s). intros _. change ((terrain s (r_i r) (r_j r) : Z) <= terrain s (r_i r) (r_j r) + e_h e). lia.
  Qed.

  Lemma reset_lock l l' a s : rel L 1 a s -> Forall2 (relr L 1) l l' ->
    sync (rel L 1) (for_each l (reset_record (A := A)) a) (for_each l' (reset_record (A := N)) s).
  Proof.
    intros R Hl.
    apply (sync_for_each2 (relr L 1) (rel L 1) (fun _ _ => True) l l'); auto.
    - clear a s R. intros e e' _ a s (E1 & E2 & E3 & _) R _. unfold reset_record.
      rewrite E1, E2, E3. apply sync_guard; [rewrite (rel_inb _ _ _ _ _ _ R); reflexivity|].
      intros _. apply sync_ok.
      apply rel_set_bs; [apply rel_set_bs; auto|]; apply (W_0 L 1); lia.
    - intros e r s' _. unfold reset_record, guard.
      destruct (layer_ok (e_ind e) && inb s' (e_i e) (e_j e)); cbn; auto.
  Qed.

  Theorem update_body_soil_both a s :
    rel L 1 a s -> lim s 0 -> detached g' near s ->
    Forall (target_ok (remap L relocate) s) (records s) ->
    Forall (fun e => forall r, relocate (e_pos e) = Ok r -> l_okh L (r_z r)) (records a) ->
    both (fun a' s' => rel L 1 a' s' /\ lim s' 0 /\ resettled g' near s s')
      (update_body_soil g tA relocate a)
      (update_body_soil (A := N) g' tz (remap L relocate) s).
  Proof.
    intros R Hl HD Ht Hok.
    assert (Hg := update_body_soil_good g' tz near (remap L relocate) (l_tz_pos _ L) tz_half s HD Ht).
    enough (HB : both (fun a' s' => rel L 1 a' s' /\ floored Lb s')
      (update_body_soil g tA relocate a) (update_body_soil (A := N) g' tz (remap L relocate) s)).
    { destruct HB as (a' & s' & Ea & Es & R' & Hf). rewrite Es in Hg. exists a', s'.
      split; [auto|]. split; [auto|]. split; [auto|]. split; [|exact Hg].
      destruct Hg as (_ & Dm & Bq & _ & _ & _ & _ & Tt & _).
      apply (lim_same (l_H L) Lb T (l_K L) s s' 0 0); auto. lia. }
    clear Hg. unfold update_body_soil.
    pose proof (rel_records _ _ _ _ R) as Rr.
    eapply both_bind.
    { apply both_intro; [apply reset_lock; eauto|].
      apply (reset_records_good g' near); auto. }
    cbv beta. intros a0 s0 (R0 & Dm & Tq & Bq & _ & _ & _ & _ & _ & Hz).
    pose proof (reset_records_cleared g' near s s0 HD Dm Tq Bq Hz) as [T0 C0].
    destruct Hl as (L1 & L2 & L3 & L4).
    assert (Hnn : forall r, Forall (rec_ok near cz s) r -> 0 <= sum_h r).
    { induction 1 as [|e r He _ IH]; cbn [sum_h]; [lia|]. destruct He as (_ & _ & He & _). lia. }
    assert (Hl0 : floored Lb s0).
    { intros i j Hij. rewrite Tq. apply L2. destruct Dm as [D1 D2]. unfold on_grid in *.
      rewrite <- D1, <- D2. auto. }
    pose proof HD as (_ & _ & _ & HD4).
    pose (E := fun (e : rec_t A) (e' : rec_t N) => relr L 1 e e' /\
      forall r, relocate (e_pos e) = Ok r -> l_okh L (r_z r)).
    assert (HE : Forall2 E (records a) (records s)).
    { clear - Rr Hok. subst E. induction Rr; constructor.
      - inversion Hok; subst; auto.
      - inversion Hok; subst; auto. }
    pose (Q := fun (rest : list (rec_t N)) (a' : sim A) (s' : sim N) =>
      rel L 1 a' s' /\ floored Lb s' /\
      Forall (rec_ok near cz s) rest /\ Forall (target_ok (remap L relocate) s) rest /\
      consistent near cz s' (records s') /\ same_dims s s' /\ beq s s' /\
      total_soil s' + sum_h rest = total_soil s).
    eapply both_weaken.
    { apply (both_for_each2 E Q (records a) (records s)); [exact HE| |].
      - intros e e' rest a1 s1 (Re & Hk) (R1 & F1 & Hr & Htt & C1 & D1 & B1 & T1).
        inversion Hr as [|? ? He Hr']; subst. inversion Htt as [|? ? He2 Htt']; subst.
        pose proof (update_record_lock a1 s1 e e' R1 Re Hk) as Sy.
        assert (Hre : rec_ok near cz s1 e') by (eapply rec_ok_dims; eauto).
        assert (Hta : target_ok (remap L relocate) s1 e').
        { eapply returns_weaken; [exact He2|]. intros r. unfold inside. destruct D1 as [-> ->]. auto. }
        pose proof (update_record_good g' tz near (remap L relocate) (l_tz_pos _ L) tz_half
          s1 e' C1 Hre Hta) as Gd.
        assert (Rs : partial (update_record (A := N) g' tz (remap L relocate) e' s1) (raised s1)).
        { destruct Hre as (_ & _ & He0 & He1 & _). apply update_record_raised; auto. }
        pose proof (both_intro _ _ _ _ Sy Gd) as (a2 & s2 & Ea & Es & R2 & Se).
        rewrite Es in Rs. cbn in Rs. exists a2, s2. split; [auto|]. split; [auto|].
        destruct Se as (_ & C2 & D2 & B2 & _ & _ & _ & _ & T2 & _).
        assert (D3 : same_dims s s2) by (destruct D1, D2; split; congruence).
        assert (B3 : beq s s2) by (intros k i j; rewrite B2; apply B1).
        assert (F2 : floored Lb s2) by (eapply raised_floored; eauto).
        assert (T3 : total_soil s2 + sum_h rest = total_soil s).
        { cbn [sum_h] in T1. lia. }
        assert (Lm : lim s2 (sum_h rest)).
        { apply (lim_same (l_H L) Lb T (l_K L) s s2 0); auto; [lia|]. split; [auto|]. auto. }
        destruct (lim_bounds (l_H L) Lb T (l_K L) near cz s2 _ _ C2 Lm (Hnn rest Hr')) as (Y1 & Y2 & Y3 & _).
        split; [|repeat (split; [solve [auto]|]); exact T3].
        eapply rel_one; [exact R2|]. split; [exact Y1|]. split; [exact Y2|exact Y3].
      - split; [apply rel_set_records; auto|]. split; [exact Hl0|].
        split; [auto|]. split; [auto|]. split; [exact C0|].
        split; [exact Dm|]. split; [exact Bq|]. exact T0. }
    intros a1 s1 (H1 & H2 & _). auto.
  Qed.
End LockBodySoil.
