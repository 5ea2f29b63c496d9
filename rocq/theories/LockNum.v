(** Binary32 heights that are multiples of a cell height [2 ^ w] ticks of [2 ^ -149]: the
    operations of the simulator on them are exact. *)
From Coq Require Import ZArith Bool Reals Lia Lra.
From Coq Require Import Floats.SpecFloat.
From Flocq Require Import Core.Zaux Core.Raux Core.Defs Core.Generic_fmt Core.FLX Core.FLT
  Core.Round_NE Core.Float_prop.
From Flocq Require IEEE754.BinarySingleNaN.
From Verif Require Import Outcome Num Flt FltB ModelProgram SpecBinary FloatBase LockBase.
Open Scope R_scope.

Local Instance sp_pos : Prec_gt_0 24 := eq_refl.
Local Instance sp_lt : BinarySingleNaN.Prec_lt_emax 24 128 := eq_refl.
Local Instance dp_pos : Prec_gt_0 53 := eq_refl.
Local Instance dp_lt : BinarySingleNaN.Prec_lt_emax 53 1024 := eq_refl.

Notation is32 := (is 24 128).
Notation is64 := (is 53 1024).
Notation rnd32 := (round radix2 (SpecFloat.fexp 24 128) ZnearestE).
Notation rnd64 := (round radix2 (SpecFloat.fexp 53 1024) ZnearestE).
Notation fmt32 := (generic_format radix2 (SpecFloat.fexp 24 128)).
Notation fmt64 := (generic_format radix2 (SpecFloat.fexp 53 1024)).

(** The length of [x] ticks. *)
Definition tv (x : Z) : R := IZR x * bpow radix2 (-149).

Lemma tick_pos : 0 < bpow radix2 (-149).
Proof. apply bpow_gt_0. Qed.
Lemma tv_0 : tv 0 = 0.
Proof. unfold tv. ring. Qed.
Lemma tv_add x y : tv (x + y) = tv x + tv y.
Proof. unfold tv. rewrite plus_IZR. ring. Qed.
Lemma tv_sub x y : tv (x - y) = tv x - tv y.
Proof. unfold tv. rewrite minus_IZR. ring. Qed.
Lemma tv_opp x : tv (- x) = - tv x.
Proof. unfold tv. rewrite opp_IZR. ring. Qed.
Lemma tv_mul n x : tv (n * x) = IZR n * tv x.
Proof. unfold tv. rewrite mult_IZR. ring. Qed.
Lemma tv_abs x : tv (Z.abs x) = Rabs (tv x).
Proof. unfold tv. rewrite abs_IZR, Rabs_mult, (Rabs_pos_eq (bpow _ _)); auto. apply Rlt_le, tick_pos. Qed.
Lemma tv_le x y : (x <= y)%Z -> tv x <= tv y.
Proof. intros H. apply Rmult_le_compat_r; [apply Rlt_le, tick_pos|apply IZR_le; auto]. Qed.
Lemma tv_lt x y : (x < y)%Z -> tv x < tv y.
Proof. intros H. apply Rmult_lt_compat_r; [apply tick_pos|apply IZR_lt; auto]. Qed.
Lemma tv_inj x y : tv x = tv y -> x = y.
Proof.
  intros E. destruct (Z.lt_trichotomy x y) as [H|[H|H]]; auto; apply tv_lt in H; lra.
Qed.
Lemma tv_F2R n k : (0 <= k)%Z -> tv (n * 2 ^ k) = F2R (Float radix2 n (k - 149)).
Proof.
  intros Hk. unfold tv, F2R. cbn [Fnum Fexp]. rewrite mult_IZR.
  change (2 ^ k)%Z with (Zpower radix2 k). rewrite IZR_Zpower by auto.
  rewrite Rmult_assoc, <- bpow_plus. reflexivity.
Qed.
Lemma tv_pow k : (0 <= k)%Z -> tv (2 ^ k) = bpow radix2 (k - 149).
Proof.
  intros Hk. rewrite <- (Z.mul_1_l (2 ^ k)), tv_F2R by auto. apply F2R_bpow.
Qed.

Lemma ltb_tv x y : Rlt_bool (tv x) (tv y) = (x <? y)%Z.
Proof.
  destruct (Z.ltb_spec x y); [apply Rlt_bool_true, tv_lt|apply Rlt_bool_false, tv_le]; auto.
Qed.
Lemma eqb_tv x y : Req_bool (tv x) (tv y) = (x =? y)%Z.
Proof.
  destruct (Z.eqb_spec x y); [apply Req_bool_true; congruence|].
  apply Req_bool_false. intros E. apply tv_inj in E. auto.
Qed.

Lemma fmt_tv n k : (0 <= k)%Z -> (Z.abs n <= 2 ^ 24)%Z -> fmt32 (tv (n * 2 ^ k)).
Proof.
  intros Hk Hn. rewrite tv_F2R by auto. apply format_scaled; auto with typeclass_instances.
  change (emin 24 128) with (-149)%Z. lia.
Qed.
Lemma fmt64_tv n k : (0 <= k)%Z -> (Z.abs n <= 2 ^ 53)%Z -> fmt64 (tv (n * 2 ^ k)).
Proof.
  intros Hk Hn. rewrite tv_F2R by auto. apply format_scaled; auto with typeclass_instances.
  change (emin 53 1024) with (-1074)%Z. lia.
Qed.

Lemma small32 x : Rabs x <= bpow radix2 127 -> small 24 128 x.
Proof.
  intros H. unfold small. apply Rle_lt_trans with (bpow radix2 127); [|apply bpow_lt; lia].
  apply Rabs_le_inv in H. apply Rabs_le.
  assert (F : fmt32 (bpow radix2 127)).
  { apply generic_format_bpow. reflexivity || (vm_compute; discriminate). }
  split; [apply rnd_ge_format; auto with typeclass_instances; [apply generic_format_opp; auto|lra]|].
  apply rnd_le_format; auto with typeclass_instances. lra.
Qed.
Lemma small64 x : Rabs x <= bpow radix2 1023 -> small 53 1024 x.
Proof.
  intros H. unfold small. apply Rle_lt_trans with (bpow radix2 1023); [|apply bpow_lt; lia].
  apply Rabs_le_inv in H. apply Rabs_le.
  assert (F : fmt64 (bpow radix2 1023)).
  { apply generic_format_bpow. reflexivity || (vm_compute; discriminate). }
  split; [apply rnd_ge_format; auto with typeclass_instances; [apply generic_format_opp; auto|lra]|].
  apply rnd_le_format; auto with typeclass_instances. lra.
Qed.

Lemma tv_bound x : (Z.abs x <= 2 ^ 276)%Z -> Rabs (tv x) <= bpow radix2 127.
Proof.
  intros H. rewrite <- tv_abs. apply Rle_trans with (tv (2 ^ 276)); [apply tv_le; auto|].
  rewrite tv_pow by lia. apply Rle_refl.
Qed.
Lemma bpow_127_1023 x : Rabs x <= bpow radix2 127 -> Rabs x <= bpow radix2 1023.
Proof. intros H. eapply Rle_trans; [exact H|]. apply bpow_le. lia. Qed.

Lemma ticks32_is a : valid_binary 24 128 a = true -> BinarySingleNaN.is_finite_SF a = true ->
  is32 a (tv (ticks32 a)).
Proof.
  intros V Fi. split; [auto|]. split; [auto|].
  destruct a as [s|s| |s m e]; try discriminate; [cbn; rewrite tv_0; reflexivity|].
  cbn [ticks32]. rewrite tv_F2R.
  - cbn. f_equal. f_equal. lia.
  - cbn in V. unfold bounded in V. apply andb_true_iff in V as [V _].
    unfold canonical_mantissa in V. apply Zeq_bool_eq in V. unfold fexp, emin in V. lia.
Qed.

Lemma is32_ticks32 a x : is32 a (tv x) -> ticks32 a = x.
Proof.
  intros (V & Fi & E). apply tv_inj. rewrite <- E.
  destruct (ticks32_is a V Fi) as (_ & _ & ->). reflexivity.
Qed.

Section Dyadic.
  (** Cell height [2 ^ w] ticks; tolerance [tA], [tt] ticks; [H] bounds the body. *)
  Variables w v tt H : Z.
  Variable tA : spec_float.
  Hypothesis Hw : (2 <= w <= 250)%Z.
  Hypothesis Hv : (0 <= v <= w)%Z.
  Hypothesis HtA : is32 tA (tv tt).
  Hypothesis Htv : (2 ^ v <= tt)%Z.
  Hypothesis Htw : (4 * tt <= 2 ^ w)%Z.
  Hypothesis HH : (2 ^ w <= H <= (2 ^ 24 - 1) * 2 ^ v)%Z.
  Variables cz K : Z.
  Hypothesis Ecz : (cz = 2 ^ w)%Z.
  Hypothesis EK : (K = (2 ^ 20 - 1) * cz)%Z.
  Hypothesis HK : (H <= K)%Z.

  Notation A := (NumOf FltB).

  Definition same_height (a : spec_float) (x : Z) : Prop := is32 a (tv x) /\ (cz | x)%Z.

  Lemma cz_pos : (0 < cz)%Z.
  Proof. rewrite Ecz. apply Z.pow_pos_nonneg; lia. Qed.
  Lemma cz_split k : (0 <= k <= w)%Z -> (cz = 2 ^ (w - k) * 2 ^ k)%Z.
  Proof. intros Hk. rewrite Ecz, <- Z.pow_add_r by lia. f_equal. lia. Qed.
  Lemma cz_big : (cz <= 2 ^ 250)%Z.
  Proof. rewrite Ecz. apply Z.pow_le_mono_r; lia. Qed.
  Lemma gap x y : (cz | x)%Z -> (cz | y)%Z -> (x < y)%Z -> (x + cz <= y)%Z.
  Proof. intros [n ->] [m ->] Hl. pose proof cz_pos. assert (n < m)%Z by nia. nia. Qed.

  Lemma K_big x : (Z.abs x <= 8 * K + cz)%Z -> (Z.abs x <= 2 ^ 276)%Z.
  Proof. intros Hx. pose proof cz_big. lia. Qed.

  Lemma count n c B : (0 < c)%Z -> (Z.abs (n * c) <= B * c)%Z -> (Z.abs n <= B)%Z.
  Proof.
    intros Hc. rewrite Z.abs_mul, (Z.abs_eq c) by lia. intros Hn.
    apply Z.mul_le_mono_pos_r with c; auto.
  Qed.

  (** Multiples of the cell height and halves of them are numbers. *)
  Lemma fmt_cell x : (cz | x)%Z -> (Z.abs x <= 8 * K + cz)%Z -> fmt32 (tv x).
  Proof.
    intros [n ->] Hx. pose proof cz_pos.
    assert (Z.abs n <= 8 * (2 ^ 20 - 1) + 1)%Z by (apply (count n cz); lia).
    rewrite Ecz. apply fmt_tv; lia.
  Qed.
  Lemma fmt_half x : (cz | 2 * x)%Z -> (Z.abs x <= 8 * K + cz)%Z -> fmt32 (tv x).
  Proof.
    intros [n E] Hx. pose proof (cz_split 1 ltac:(lia)) as Ec. pose proof cz_pos.
    assert (Ex : (x = n * 2 ^ (w - 1))%Z) by lia.
    assert (Z.abs n <= 2 * (8 * (2 ^ 20 - 1) + 1))%Z by (apply (count n cz); lia).
    rewrite Ex. apply fmt_tv; lia.
  Qed.
  Lemma fmt_quarter x : (cz | 4 * x)%Z -> (Z.abs x <= 4 * K)%Z -> fmt32 (tv x).
  Proof.
    intros [n E] Hx. pose proof (cz_split 2 ltac:(lia)) as Ec. pose proof cz_pos.
    assert (Ex : (x = n * 2 ^ (w - 2))%Z) by lia.
    assert (Z.abs n <= 16 * (2 ^ 20 - 1))%Z by (apply (count n cz); lia).
    rewrite Ex. apply fmt_tv; lia.
  Qed.

  Lemma same_exact a x : is32 a (rnd32 (tv x)) -> (cz | x)%Z -> (Z.abs x <= 8 * K + cz)%Z ->
    same_height a x.
  Proof.
    intros Ha Hx Hb. split; [|auto].
    rewrite (rnd_id 24 128) in Ha by (try apply fmt_cell; auto with typeclass_instances). exact Ha.
  Qed.

  Lemma d_add a b x y : same_height a x -> same_height b y -> (Z.abs (x + y) <= 8 * K)%Z ->
    same_height (SFadd 24 128 a b) (x + y).
  Proof.
    intros [A1 A2] [B1 B2] Hb. pose proof cz_pos. apply same_exact; [|apply Z.divide_add_r; auto|lia].
    rewrite tv_add. apply is_add; auto with typeclass_instances.
    apply small32. rewrite <- tv_add. apply tv_bound, K_big. lia.
  Qed.
  Lemma d_sub a b x y : same_height a x -> same_height b y -> (Z.abs (x - y) <= 8 * K)%Z ->
    same_height (SFsub 24 128 a b) (x - y).
  Proof.
    intros [A1 A2] [B1 B2] Hb. pose proof cz_pos. apply same_exact; [|apply Z.divide_sub_r; auto|lia].
    rewrite tv_sub. apply is_sub; auto with typeclass_instances.
    apply small32. rewrite <- tv_sub. apply tv_bound, K_big. lia.
  Qed.
  Lemma d_abs a x : same_height a x -> same_height (SFabs a) (Z.abs x).
  Proof.
    intros [A1 A2]. split; [rewrite tv_abs; apply is_abs; auto with typeclass_instances|].
    apply Z.divide_abs_r; auto.
  Qed.
  Lemma d_lt a b x y : is32 a (tv x) -> is32 b (tv y) -> b_ltb a b = (x <? y)%Z.
  Proof. intros A1 B1. rewrite (is_ltb 24 128 a b _ _ A1 B1). apply ltb_tv. Qed.
  Lemma d_eq a b x y : is32 a (tv x) -> is32 b (tv y) -> b_eqb a b = (x =? y)%Z.
  Proof. intros A1 B1. rewrite (is_eqb 24 128 a b _ _ A1 B1). apply eqb_tv. Qed.

  (** Adding and subtracting the tolerance. *)
  Lemma plus_tol a x : same_height a x -> (Z.abs x <= 8 * K)%Z ->
    exists r, is32 (SFadd 24 128 a tA) r /\ tv x <= r <= tv (x + 2 ^ (w - 1)) /\
      ((Z.abs x <= H)%Z -> tv (x + 2 ^ v) <= r).
  Proof.
    intros [A1 A2] Hx. pose proof cz_pos as P. pose proof (cz_split 1 ltac:(lia)) as E1.
    assert (Pt : (0 < 2 ^ v)%Z) by (apply Z.pow_pos_nonneg; lia).
    exists (rnd32 (tv x + tv tt)). rewrite <- tv_add. split; [|split; [split|]].
    - rewrite tv_add. apply is_add; auto with typeclass_instances. rewrite <- tv_add.
      apply small32, tv_bound, K_big. lia.
    - apply rnd_ge_format; auto with typeclass_instances; [apply fmt_cell; auto; lia|].
      apply tv_le. lia.
    - apply rnd_le_format; auto with typeclass_instances; [|apply tv_le; lia].
      apply fmt_half; [|lia]. destruct A2 as [n ->]. exists (2 * n + 1)%Z. lia.
    - intros Hh. apply rnd_ge_format; auto with typeclass_instances; [|apply tv_le; lia].
      destruct A2 as [n ->]. rewrite (cz_split v ltac:(lia)).
      replace (n * (2 ^ (w - v) * 2 ^ v) + 2 ^ v)%Z with ((n * 2 ^ (w - v) + 1) * 2 ^ v)%Z by ring.
      apply fmt_tv; [lia|].
      rewrite (cz_split v ltac:(lia)) in Hh.
      assert (Z.abs (n * 2 ^ (w - v)) <= 2 ^ 24 - 1)%Z; [|lia].
      rewrite Z.mul_assoc, Z.abs_mul, (Z.abs_eq (2 ^ v)) in Hh by lia.
      apply Z.mul_le_mono_pos_r with (2 ^ v)%Z; lia.
  Qed.
  Lemma minus_tol a x : same_height a x -> (Z.abs x <= 8 * K)%Z ->
    exists r, is32 (SFsub 24 128 a tA) r /\ tv (x - 2 ^ (w - 1)) <= r <= tv x /\
      ((Z.abs x <= H)%Z -> r <= tv (x - 2 ^ v)).
  Proof.
    intros [A1 A2] Hx. pose proof cz_pos as P. pose proof (cz_split 1 ltac:(lia)) as E1.
    assert (Pt : (0 < 2 ^ v)%Z) by (apply Z.pow_pos_nonneg; lia).
    exists (rnd32 (tv x - tv tt)). rewrite <- tv_sub. split; [|split; [split|]].
    - rewrite tv_sub. apply is_sub; auto with typeclass_instances. rewrite <- tv_sub.
      apply small32, tv_bound, K_big. lia.
    - apply rnd_ge_format; auto with typeclass_instances; [|apply tv_le; lia].
      apply fmt_half; [|lia]. destruct A2 as [n ->]. exists (2 * n - 1)%Z. lia.
    - apply rnd_le_format; auto with typeclass_instances; [apply fmt_cell; auto; lia|].
      apply tv_le. lia.
    - intros Hh. apply rnd_le_format; auto with typeclass_instances; [|apply tv_le; lia].
      destruct A2 as [n ->]. rewrite (cz_split v ltac:(lia)).
      replace (n * (2 ^ (w - v) * 2 ^ v) - 2 ^ v)%Z with ((n * 2 ^ (w - v) - 1) * 2 ^ v)%Z by ring.
      apply fmt_tv; [lia|].
      rewrite (cz_split v ltac:(lia)) in Hh.
      assert (Z.abs (n * 2 ^ (w - v)) <= 2 ^ 24 - 1)%Z; [|lia].
      rewrite Z.mul_assoc, Z.abs_mul, (Z.abs_eq (2 ^ v)) in Hh by lia.
      apply Z.mul_le_mono_pos_r with (2 ^ v)%Z; lia.
  Qed.

  Definition cA : spec_float := of_scaled 24 128 false cz (-149).
  (** The tolerance of the exact run: what the sum of the cell height and the tolerance
      is above the cell height, once rounded. *)
  Definition tz : Z := (ticks32 (SFadd 24 128 cA tA) - cz)%Z.

  Lemma is_phi x : (cz | x)%Z -> (Z.abs x <= 8 * K)%Z ->
    is32 (of_scaled 24 128 false x (-149)) (tv x).
  Proof.
    intros Hx Hb. pose proof cz_pos. change (tv x) with (F2R (Float radix2 x (-149))).
    rewrite <- (rnd_id 24 128 (F2R (Float radix2 x (-149)))).
    - apply is_scaled; auto with typeclass_instances. apply small32. apply (tv_bound x), K_big. lia.
    - apply (fmt_cell x); auto. lia.
  Qed.

  Lemma cA_same : same_height cA cz.
  Proof.
    split; [apply is_phi|exists 1%Z; lia]; [exists 1%Z; lia|]. pose proof cz_pos. lia.
  Qed.

  Lemma tz_bounds : (0 < tz)%Z /\ (4 * tz <= cz)%Z /\ is32 (SFadd 24 128 cA tA) (tv (cz + tz)).
  Proof.
    pose proof cz_pos as P. pose proof (cz_split 2 ltac:(lia)) as E2.
    assert (Pt : (0 < 2 ^ v)%Z) by (apply Z.pow_pos_nonneg; lia).
    destruct (plus_tol cA cz cA_same) as (r & R1 & R2 & R3); [lia|].
    assert (E : tv (ticks32 (SFadd 24 128 cA tA)) = r).
    { destruct R1 as (V1 & V2 & V3). destruct (ticks32_is _ V1 V2) as (_ & _ & E). congruence. }
    assert (Ei : is32 (SFadd 24 128 cA tA) (tv (cz + tz))).
    { unfold tz. replace (cz + (ticks32 (SFadd 24 128 cA tA) - cz))%Z with (ticks32 (SFadd 24 128 cA tA)) by lia.
      rewrite E. exact R1. }
    split; [|split; [|exact Ei]].
    - unfold tz. assert (cz + 2 ^ v <= ticks32 (SFadd 24 128 cA tA))%Z; [|lia].
      apply Z.nlt_ge. intros Hlt. apply tv_lt in Hlt. rewrite E in Hlt.
      assert (tv (cz + 2 ^ v) <= r) by (apply R3; lia). lra.
    - assert (cz + tz <= cz + 2 ^ (w - 2))%Z; [|lia].
      apply Z.nlt_ge. intros Hlt. apply tv_lt in Hlt.
      assert (Er : r = rnd32 (tv (cz + tt))).
      { destruct R1 as (_ & _ & <-).
        assert (S : is32 (SFadd 24 128 cA tA) (rnd32 (tv cz + tv tt))).
        { apply is_add; auto with typeclass_instances; [apply cA_same|]. rewrite <- tv_add.
          apply small32, tv_bound, K_big. lia. }
        destruct S as (_ & _ & ->). rewrite tv_add. reflexivity. }
      assert (r <= tv (cz + 2 ^ (w - 2))).
      { rewrite Er. apply rnd_le_format; auto with typeclass_instances; [|apply tv_le; lia].
        apply fmt_quarter; [exists 5%Z; lia|lia]. }
      replace (tv (cz + tz)) with r in Hlt; [lra|].
      rewrite <- E. unfold tz. f_equal. lia.
  Qed.

  Lemma lt_real a b r x : is32 a r -> is32 b (tv x) -> (r < tv x -> b_ltb a b = true) /\
    (tv x <= r -> b_ltb a b = false).
  Proof.
    intros A1 B1. rewrite (is_ltb 24 128 a b _ _ A1 B1).
    split; intros; [apply Rlt_bool_true|apply Rlt_bool_false]; lra.
  Qed.
  Lemma gt_real a b r x : is32 a r -> is32 b (tv x) -> (tv x < r -> b_ltb b a = true) /\
    (r <= tv x -> b_ltb b a = false).
  Proof.
    intros A1 B1. rewrite (is_ltb 24 128 b a _ _ B1 A1).
    split; intros; [apply Rlt_bool_true|apply Rlt_bool_false]; lra.
  Qed.

  Lemma half_lt : (0 < 2 ^ (w - 1) < cz)%Z.
  Proof.
    pose proof (cz_split 1 ltac:(lia)). assert (0 < 2 ^ (w - 1))%Z by (apply Z.pow_pos_nonneg; lia). lia.
  Qed.

  Lemma d_lt_add a b x y : same_height a x -> same_height b y -> (Z.abs x <= 8 * K)%Z ->
    b_ltb (SFadd 24 128 a tA) b = (x + tz <? y)%Z.
  Proof.
    intros HA HB Hx. destruct (plus_tol a x HA Hx) as (r & R1 & R2 & _).
    destruct (lt_real _ _ _ _ R1 (proj1 HB)) as [T F]. pose proof tz_bounds as (Z1 & Z2 & _).
    pose proof half_lt as Hh. destruct HA as [_ A2], HB as [_ B2].
    destruct (Z.ltb_spec (x + tz) y) as [Hl|Hl].
    - apply T. pose proof (gap x y A2 B2 ltac:(lia)).
      apply Rle_lt_trans with (tv (x + 2 ^ (w - 1))); [apply R2|]. apply tv_lt. lia.
    - apply F. apply Rle_trans with (tv x); [|apply R2]. apply tv_le.
      destruct (Z.lt_ge_cases x y) as [Hxy|]; [|lia]. pose proof (gap x y A2 B2 Hxy). lia.
  Qed.
  Lemma d_gt_sub a b x y : same_height a x -> same_height b y -> (Z.abs x <= 8 * K)%Z ->
    b_ltb b (SFsub 24 128 a tA) = (y <? x - tz)%Z.
  Proof.
    intros HA HB Hx. destruct (minus_tol a x HA Hx) as (r & R1 & R2 & _).
    destruct (gt_real _ _ _ _ R1 (proj1 HB)) as [T F]. pose proof tz_bounds as (Z1 & Z2 & _).
    pose proof half_lt as Hh. destruct HA as [_ A2], HB as [_ B2].
    destruct (Z.ltb_spec y (x - tz)) as [Hl|Hl].
    - apply T. pose proof (gap y x B2 A2 ltac:(lia)).
      apply Rlt_le_trans with (tv (x - 2 ^ (w - 1))); [|apply R2]. apply tv_lt. lia.
    - apply F. apply Rle_trans with (tv x); [apply R2|]. apply tv_le.
      destruct (Z.lt_ge_cases y x) as [Hxy|]; [|lia]. pose proof (gap y x B2 A2 Hxy). lia.
  Qed.
  Lemma d_gt_add a b x y : same_height a x -> same_height b y -> (Z.abs x <= 8 * K)%Z ->
    (Z.abs y <= H)%Z -> b_ltb b (SFadd 24 128 a tA) = (y <? x + tz)%Z.
  Proof.
    intros HA HB Hx Hy. destruct (plus_tol a x HA Hx) as (r & R1 & R2 & R3).
    destruct (gt_real _ _ _ _ R1 (proj1 HB)) as [T F]. pose proof tz_bounds as (Z1 & Z2 & _).
    pose proof half_lt as Hh. destruct HA as [_ A2], HB as [_ B2].
    assert (Pt : (0 < 2 ^ v)%Z) by (apply Z.pow_pos_nonneg; lia).
    destruct (Z.ltb_spec y (x + tz)) as [Hl|Hl].
    - apply T. destruct (Z.lt_trichotomy y x) as [Hxy|[->|Hxy]].
      + apply Rlt_le_trans with (tv x); [apply tv_lt; auto|apply R2].
      + apply Rlt_le_trans with (tv (x + 2 ^ v)); [apply tv_lt; lia|apply R3; auto].
      + pose proof (gap x y A2 B2 Hxy). lia.
    - apply F. apply Rle_trans with (tv (x + 2 ^ (w - 1))); [apply R2|]. apply tv_le.
      pose proof (gap x y A2 B2 ltac:(lia)). lia.
  Qed.
  Lemma d_lt_sub a b x y : same_height a x -> same_height b y -> (Z.abs x <= 8 * K)%Z ->
    (Z.abs y <= H)%Z -> b_ltb (SFsub 24 128 a tA) b = (x - tz <? y)%Z.
  Proof.
    intros HA HB Hx Hy. destruct (minus_tol a x HA Hx) as (r & R1 & R2 & R3).
    destruct (lt_real _ _ _ _ R1 (proj1 HB)) as [T F]. pose proof tz_bounds as (Z1 & Z2 & _).
    pose proof half_lt as Hh. destruct HA as [_ A2], HB as [_ B2].
    assert (Pt : (0 < 2 ^ v)%Z) by (apply Z.pow_pos_nonneg; lia).
    destruct (Z.ltb_spec (x - tz) y) as [Hl|Hl].
    - apply T. destruct (Z.lt_trichotomy x y) as [Hxy|[->|Hxy]].
      + apply Rle_lt_trans with (tv x); [apply R2|apply tv_lt; auto].
      + apply Rle_lt_trans with (tv (y - 2 ^ v)); [apply R3; auto|apply tv_lt; lia].
      + pose proof (gap y x B2 A2 Hxy). lia.
    - apply F. apply Rle_trans with (tv (x - 2 ^ (w - 1))); [|apply R2]. apply tv_le.
      pose proof (gap y x B2 A2 ltac:(lia)). lia.
  Qed.
  Lemma tt_cz : (0 < tt < cz)%Z.
  Proof.
    assert (Pt : (0 < 2 ^ v)%Z) by (apply Z.pow_pos_nonneg; lia). pose proof cz_pos. lia.
  Qed.
  Lemma cell_sign x : (cz | x)%Z -> (x <= 0 \/ cz <= x)%Z.
  Proof.
    intros Hx. destruct (Z.lt_ge_cases 0 x) as [Hl|]; [|lia].
    pose proof (gap 0 x ltac:(exists 0%Z; lia) Hx Hl). lia.
  Qed.
  Lemma d_lt_tol a x : same_height a x -> b_ltb a tA = (x <? tz)%Z.
  Proof.
    intros [A1 A2]. rewrite (d_lt _ _ _ _ A1 HtA). pose proof tz_bounds as (Z1 & Z2 & _).
    pose proof tt_cz. destruct (cell_sign x A2);
      destruct (Z.ltb_spec x tt), (Z.ltb_spec x tz); lia.
  Qed.
  Lemma d_gt_tol a x : same_height a x -> b_ltb tA a = (tz <? x)%Z.
  Proof.
    intros [A1 A2]. rewrite (d_lt _ _ _ _ HtA A1). pose proof tz_bounds as (Z1 & Z2 & _).
    pose proof tt_cz. destruct (cell_sign x A2);
      destruct (Z.ltb_spec tt x), (Z.ltb_spec tz x); lia.
  Qed.

  (** Conversions. *)
  Lemma wid_is a x : is32 a x -> is64 (b_conv 53 1024 a) (rnd64 x).
  Proof.
    intros Ha. pose proof (is_bound 24 128 a x Ha) as Hb. destruct Ha as (_ & Fi & E).
    apply conv_is; auto with typeclass_instances. apply small64.
    apply Rlt_le. eapply Rlt_trans; [exact Hb|]. apply bpow_lt. lia.
  Qed.
  Lemma wid_cell a x : same_height a x -> (Z.abs x <= 8 * K)%Z -> is64 (b_conv 53 1024 a) (tv x).
  Proof.
    intros [A1 [n ->]] Hx. pose proof cz_pos.
    assert (Z.abs n <= 8 * (2 ^ 20 - 1))%Z by (apply (count n cz); lia).
    rewrite <- (rnd_id 53 1024 (tv (n * cz))); [apply wid_is; auto|].
    rewrite Ecz. apply fmt64_tv; lia.
  Qed.
  Lemma d_int k : (Z.abs k <= 2 ^ 24)%Z -> is64 (of_scaled 53 1024 false k 0) (IZR k).
  Proof.
    intros Hk. apply is_of_Z; auto with typeclass_instances; [lia|unfold emin; lia|lia].
  Qed.
  Lemma is_half : is64 (SFdiv 53 1024 (of_scaled 53 1024 false 1 0) (of_scaled 53 1024 false 2 0)) (1 / 2).
  Proof.
    assert (F : fmt64 (1 / 2)).
    { assert (E : 1 / 2 = bpow radix2 (-1)) by (change (bpow radix2 (-1)) with (/ 2); lra).
      rewrite E. apply generic_format_bpow. vm_compute. discriminate. }
    rewrite <- (rnd_id 53 1024 _ F).
    apply is_div; auto with typeclass_instances; try (apply d_int; lia).
    unfold small. rewrite (rnd_id 53 1024 _ F).
    apply Rlt_le_trans with (bpow radix2 0); [cbn; rewrite Rabs_pos_eq; lra|apply bpow_le; lia].
  Qed.

  Lemma d_mid d a b x1 x2 x3 : same_height d x1 -> same_height a x2 -> same_height b x3 ->
    (Z.abs x1 <= K)%Z -> (Z.abs x2 <= K)%Z -> (Z.abs x3 <= K)%Z ->
    same_height (f_mid (n := A) d a b tA cA) (cz * ((x1 + x2 + x3 + 2 * tz) / (2 * cz))).
  Proof.
    intros H1 H2 H3 B1 B2 B3. pose proof cz_pos as P. pose proof tz_bounds as (Z1 & Z2 & _).
    assert (S : same_height (SFadd 24 128 (SFadd 24 128 d a) b) (x1 + x2 + x3)).
    { apply d_add; [apply d_add|auto|]; auto; lia. }
    set (s := SFadd 24 128 (SFadd 24 128 d a) b) in *.
    set (u := (x1 + x2 + x3)%Z) in *.
    assert (Bu : (Z.abs u <= 3 * K)%Z) by (subst u; lia).
    pose proof (wid_cell s u S ltac:(lia)) as W1.
    destruct S as [S1 [n En]].
    assert (Bn : (Z.abs n <= 3 * (2 ^ 20 - 1))%Z) by (apply (count n cz); lia).
    pose proof (cz_split 1 ltac:(lia)) as Ec. pose proof (cz_split 2 ltac:(lia)) as Ec2.
    set (hu := (n * 2 ^ (w - 1))%Z).
    assert (Eh : 1 / 2 * tv u = tv hu).
    { assert (Eu : (u = 2 * hu)%Z) by (subst hu; lia). rewrite Eu, tv_mul. lra. }
    assert (F64 : fmt64 (tv hu)) by (apply fmt64_tv; lia).
    assert (F32 : fmt32 (tv hu)) by (apply fmt_tv; lia).
    assert (Bh : (Z.abs hu <= 2 ^ 276)%Z) by (apply K_big; lia).
    assert (W2 : is64 (SFmul 53 1024 (SFdiv 53 1024 (of_scaled 53 1024 false 1 0) (of_scaled 53 1024 false 2 0))
                  (b_conv 53 1024 s)) (tv hu)).
    { rewrite <- (rnd_id 53 1024 _ F64), <- Eh.
      apply is_mul; auto with typeclass_instances; [apply is_half|].
      apply small64. rewrite Eh. apply bpow_127_1023, tv_bound; auto. }
    assert (W3 : is32 (b_conv 24 128 (SFmul 53 1024 (SFdiv 53 1024 (of_scaled 53 1024 false 1 0)
                  (of_scaled 53 1024 false 2 0)) (b_conv 53 1024 s))) (tv hu)).
    { rewrite <- (rnd_id 24 128 _ F32). destruct W2 as (_ & Y1 & Y2).
      apply conv_is; auto with typeclass_instances. apply small32, tv_bound; auto. }
    set (h := b_conv 24 128 _) in W3.
    assert (W4 : is32 (SFadd 24 128 h tA) (rnd32 (tv (hu + tt)))).
    { rewrite tv_add. apply is_add; auto with typeclass_instances. rewrite <- tv_add.
      apply small32, tv_bound, K_big. pose proof tt_cz. lia. }
    set (r1 := rnd32 (tv (hu + tt))) in *.
    assert (R1 : tv hu <= r1 <= tv (hu + 2 ^ (w - 2))).
    { pose proof tt_cz. split.
      - apply rnd_ge_format; auto with typeclass_instances. apply tv_le. lia.
      - apply rnd_le_format; auto with typeclass_instances; [|apply tv_le; lia].
        replace (hu + 2 ^ (w - 2))%Z with ((2 * n + 1) * 2 ^ (w - 2))%Z by (subst hu; lia).
        apply fmt_tv; lia. }
    assert (Tc : 0 < tv cz) by (rewrite <- tv_0; apply tv_lt; lia).
    assert (Q0 : tv hu / tv cz = IZR n / 2).
    { assert (Eu : tv hu = IZR n * tv cz / 2).
      { rewrite <- tv_mul. replace (n * cz)%Z with (2 * hu)%Z by (subst hu; lia).
        rewrite tv_mul. lra. }
      rewrite Eu. field. lra. }
    assert (Q1 : tv (hu + 2 ^ (w - 2)) / tv cz = IZR (2 * n + 1) / 4).
    { assert (Eu : tv (hu + 2 ^ (w - 2)) = IZR (2 * n + 1) * tv cz / 4).
      { rewrite <- tv_mul. replace ((2 * n + 1) * cz)%Z with (4 * (hu + 2 ^ (w - 2)))%Z by (subst hu; lia).
        rewrite tv_mul. lra. }
      rewrite Eu. field. lra. }
    assert (F0 : fmt32 (IZR n / 2)).
    { replace (IZR n / 2) with (F2R (Float radix2 n (-1)))
        by (unfold F2R; cbn [Fnum Fexp]; change (bpow radix2 (-1)) with (/ 2); lra).
      apply format_scaled; auto with typeclass_instances; [lia|unfold emin; lia]. }
    assert (F1 : fmt32 (IZR (2 * n + 1) / 4)).
    { replace (IZR (2 * n + 1) / 4) with (F2R (Float radix2 (2 * n + 1) (-2)))
        by (unfold F2R; cbn [Fnum Fexp]; change (bpow radix2 (-2)) with (/ 4); lra).
      apply format_scaled; auto with typeclass_instances; [lia|unfold emin; lia]. }
    assert (R2 : IZR n / 2 <= r1 / tv cz <= IZR (2 * n + 1) / 4).
    { rewrite <- Q0, <- Q1. split; apply Rmult_le_compat_r; try (apply Rlt_le, Rinv_0_lt_compat, Tc); apply R1. }
    assert (Bq : Rabs (r1 / tv cz) <= IZR (2 ^ 24)).
    { assert (IZR n <= 4194304) by (apply IZR_le; lia).
      assert (-4194304 <= IZR n) by (apply IZR_le; lia).
      rewrite plus_IZR, mult_IZR in R2. apply Rabs_le.
      replace (2 ^ 24)%Z with 16777216%Z by reflexivity. lra. }
    assert (B24 : IZR (2 ^ 24) <= bpow radix2 127).
    { replace (2 ^ 24)%Z with (Zpower radix2 24) by reflexivity. rewrite IZR_Zpower by lia. apply bpow_le. lia. }
    assert (W5 : is32 (SFdiv 24 128 (SFadd 24 128 h tA) cA) (rnd32 (r1 / tv cz))).
    { apply is_div; auto with typeclass_instances; [apply cA_same|lra|]. apply small32. apply Rle_trans with (1 := Bq). exact B24. }
    set (r2 := rnd32 (r1 / tv cz)) in *.
    assert (R3 : IZR n / 2 <= r2 <= IZR (2 * n + 1) / 4).
    { split; [apply rnd_ge_format|apply rnd_le_format]; auto with typeclass_instances; apply R2. }
    assert (Efl : Zfloor r2 = (n / 2)%Z).
    { pose proof (Z.div_mod n 2 ltac:(lia)) as Dm. pose proof (Z.mod_pos_bound n 2 ltac:(lia)).
      set (m := (n / 2)%Z) in *. apply Zfloor_imp.
      assert (IZR (2 * m) <= IZR n) by (apply IZR_le; lia).
      assert (IZR n <= IZR (2 * m + 1)) by (apply IZR_le; lia).
      rewrite !plus_IZR, !mult_IZR in *. lra. }
    assert (W6 : is32 (b_to_int r_floor 24 128 (SFdiv 24 128 (SFadd 24 128 h tA) cA)) (IZR (n / 2))).
    { rewrite <- Efl. apply is_floor; auto with typeclass_instances; [unfold emin; lia|lia|].
      apply Rabs_le. assert (IZR n <= 4194304) by (apply IZR_le; lia).
      assert (-4194304 <= IZR n) by (apply IZR_le; lia).
      rewrite plus_IZR, mult_IZR in R3. replace (2 ^ 24)%Z with 16777216%Z by reflexivity. lra. }
    assert (Em : ((u + 2 * tz) / (2 * cz))%Z = (n / 2)%Z).
    { pose proof (Z.div_mod n 2 ltac:(lia)) as Dm. pose proof (Z.mod_pos_bound n 2 ltac:(lia)).
      set (m := (n / 2)%Z) in *. set (rm := (n mod 2)%Z) in *.
      assert (Er : (rm * cz = 0 \/ rm * cz = cz)%Z).
      { assert (Er : (rm = 0 \/ rm = 1)%Z) by lia. destruct Er as [-> | ->]; lia. }
      symmetry. apply Z.div_unique with (rm * cz + 2 * tz)%Z; [left; clear - Er Z1 Z2 P; lia|].
      rewrite En, Dm. ring. }
    rewrite Em.
    assert (Bm : (Z.abs (n / 2) <= 2 ^ 22)%Z).
    { pose proof (Z.div_mod n 2 ltac:(lia)). pose proof (Z.mod_pos_bound n 2 ltac:(lia)). lia. }
    set (m := (n / 2)%Z) in *.
    apply same_exact; [|exists m; lia|rewrite Z.abs_mul; rewrite (Z.abs_eq cz) by lia; clear - Bm P EK; nia].
    rewrite Z.mul_comm, tv_mul, Rmult_comm.
    apply (is_mul 24 128 _ _ cA _ (tv cz) (IZR m)); auto; [apply cA_same|].
    apply small32. rewrite Rmult_comm, <- tv_mul. apply tv_bound, K_big.
    rewrite Z.abs_mul, (Z.abs_eq cz) by lia. clear - Bm P EK; nia.
  Qed.

  Lemma nine_tenths : exists q,
    is64 (SFdiv 53 1024 (of_scaled 53 1024 false 9 0) (of_scaled 53 1024 false 10 0)) q /\
    1 / 2 <= q <= 15 / 16.
  Proof.
    assert (F1 : fmt64 (1 / 2)).
    { replace (1 / 2) with (F2R (Float radix2 1 (-1)))
        by (unfold F2R; cbn [Fnum Fexp]; change (bpow radix2 (-1)) with (/ 2); lra).
      apply format_scaled; auto with typeclass_instances; [lia|unfold emin; lia]. }
    assert (F2 : fmt64 (15 / 16)).
    { replace (15 / 16) with (F2R (Float radix2 15 (-4)))
        by (unfold F2R; cbn [Fnum Fexp]; change (bpow radix2 (-4)) with (/ 16); lra).
      apply format_scaled; auto with typeclass_instances; [lia|unfold emin; lia]. }
    assert (B : 1 / 2 <= rnd64 (9 / 10) <= 15 / 16).
    { split; [apply rnd_ge_format|apply rnd_le_format]; auto with typeclass_instances; lra. }
    exists (rnd64 (9 / 10)). split; [|exact B].
    apply is_div; auto with typeclass_instances; try (apply d_int; lia); try lra.
    unfold small. apply Rlt_le_trans with (bpow radix2 0); [|apply bpow_le; lia].
    change (bpow radix2 0) with 1. rewrite Rabs_pos_eq; lra.
  Qed.

  Lemma tv_cz : tv cz = bpow radix2 (w - 149).
  Proof. rewrite Ecz. apply tv_pow. lia. Qed.

  Lemma d_below a x : same_height a x -> (Z.abs x <= K)%Z ->
    f_below (n := A) a cA = (10 * x <? 9 * cz)%Z.
  Proof.
    intros HA Hx. pose proof cz_pos as P. destruct nine_tenths as (q & Q1 & Q2).
    assert (Tc : 0 < tv cz) by (rewrite <- tv_0; apply tv_lt; lia).
    pose proof (wid_cell a x HA ltac:(lia)) as W1.
    pose proof (wid_cell cA cz cA_same ltac:(lia)) as W2.
    assert (B : tv cz / 2 <= q * tv cz <= 15 / 16 * tv cz).
    { split; [|apply Rmult_le_compat_r; lra].
      replace (tv cz / 2) with (1 / 2 * tv cz) by lra. apply Rmult_le_compat_r; lra. }
    assert (Bc : Rabs (tv cz) <= bpow radix2 127) by (apply tv_bound, K_big; lia).
    rewrite Rabs_pos_eq in Bc by lra.
    assert (F1 : fmt64 (tv cz / 2)).
    { replace (tv cz / 2) with (F2R (Float radix2 1 (w - 150))).
      - apply format_scaled; auto with typeclass_instances; [lia|unfold emin; lia].
      - rewrite tv_cz. unfold F2R. cbn [Fnum Fexp].
        replace (w - 149)%Z with (w - 150 + 1)%Z by lia. rewrite bpow_plus_1. cbn [radix_val radix2]. lra. }
    assert (F2 : fmt64 (15 / 16 * tv cz)).
    { replace (15 / 16 * tv cz) with (F2R (Float radix2 15 (w - 153))).
      - apply format_scaled; auto with typeclass_instances; [lia|unfold emin; lia].
      - rewrite tv_cz. unfold F2R. cbn [Fnum Fexp].
        replace (w - 149)%Z with (w - 153 + 4)%Z by lia. rewrite bpow_plus.
        change (bpow radix2 4) with 16. lra. }
    assert (R : tv cz / 2 <= rnd64 (q * tv cz) <= 15 / 16 * tv cz).
    { split; [apply rnd_ge_format|apply rnd_le_format]; auto with typeclass_instances; lra. }
    assert (W3 : is64 (SFmul 53 1024 (SFdiv 53 1024 (of_scaled 53 1024 false 9 0)
      (of_scaled 53 1024 false 10 0)) (b_conv 53 1024 cA)) (rnd64 (q * tv cz))).
    { apply is_mul; auto with typeclass_instances. apply small64, bpow_127_1023.
      rewrite Rabs_pos_eq; lra. }
    change (b_ltb (b_conv 53 1024 a) (SFmul 53 1024 (SFdiv 53 1024 (of_scaled 53 1024 false 9 0)
      (of_scaled 53 1024 false 10 0)) (b_conv 53 1024 cA)) = (10 * x <? 9 * cz)%Z).
    rewrite (is_ltb 53 1024 _ _ _ _ W1 W3).
    destruct (cell_sign x (proj2 HA)) as [Hs|Hs].
    - assert (tv x <= 0) by (rewrite <- tv_0; apply tv_le; auto).
      rewrite Rlt_bool_true by lra. symmetry. apply Z.ltb_lt. lia.
    - apply tv_le in Hs as Hs'. rewrite Rlt_bool_false by lra. symmetry. apply Z.ltb_ge. lia.
  Qed.

  Lemma d_snap a x : same_height a x -> (Z.abs x <= K)%Z ->
    same_height (f_snap (n := A) a cA) x.
  Proof.
    intros HA Hx. pose proof cz_pos as P. destruct HA as [A1 [n En]].
    assert (Bn : (Z.abs n <= 2 ^ 20 - 1)%Z) by (apply (count n cz); lia).
    assert (Tc : 0 < tv cz) by (rewrite <- tv_0; apply tv_lt; lia).
    assert (Q : tv x / tv cz = IZR n).
    { rewrite En, tv_mul. field. lra. }
    assert (W1 : is32 (SFdiv 24 128 a cA) (IZR n)).
    { rewrite <- (rnd_id 24 128 (IZR n)) by (apply format_int; auto with typeclass_instances; [lia|unfold emin; lia]).
      rewrite <- Q. apply is_div; auto with typeclass_instances; [apply cA_same|lra|].
      rewrite Q. apply int_small; auto with typeclass_instances; [lia|unfold emin; lia|lia]. }
    assert (W2 : is64 (b_conv 53 1024 (SFdiv 24 128 a cA)) (IZR n)).
    { rewrite <- (rnd_id 53 1024 (IZR n)) by (apply format_int; auto with typeclass_instances; [lia|unfold emin; lia]).
      apply wid_is; auto. }
    assert (W3 : is64 (b_to_int r_round 53 1024 (b_conv 53 1024 (SFdiv 24 128 a cA))) (IZR n)).
    { apply is_round_int; auto with typeclass_instances; [unfold emin; lia|lia|lia]. }
    assert (Bx : (Z.abs x <= 2 ^ 276)%Z) by (apply K_big; lia).
    assert (E : tv cz * IZR n = tv x) by (rewrite En, tv_mul; ring).
    assert (W4 : is64 (SFmul 53 1024 (b_conv 53 1024 cA)
      (b_to_int r_round 53 1024 (b_conv 53 1024 (SFdiv 24 128 a cA)))) (tv x)).
    { rewrite <- (rnd_id 53 1024 (tv x)) by (rewrite En, Ecz; apply fmt64_tv; lia).
      rewrite <- E. apply is_mul; auto with typeclass_instances.
      - apply wid_cell; [apply cA_same|lia].
      - rewrite E. apply small64, bpow_127_1023, tv_bound; auto. }
    apply same_exact; [|exists n; auto|lia].
    destruct W4 as (_ & Y1 & Y2). apply conv_is; auto with typeclass_instances.
    apply small32, tv_bound; auto.
  Qed.

  (** Distances between the carried soil and the body. *)
  Definition phi (x : Z) : spec_float := of_scaled 24 128 false x (-149).
  Definition ddist (z : spec_float) (b : Z) : Z := ticks32 (SFabs (SFsub 24 128 z (phi b))).

  Lemma sub_valid a b : valid_binary 24 128 a = true -> valid_binary 24 128 b = true ->
    valid_binary 24 128 (SFsub 24 128 a b) = true.
  Proof.
    intros Va Vb.
    rewrite <- (BinarySingleNaN.B2SF_SF2B 24 128 a Va), <- (BinarySingleNaN.B2SF_SF2B 24 128 b Vb).
    rewrite (sub_eq 24 128 sp_pos sp_lt). apply BinarySingleNaN.valid_binary_B2SF.
  Qed.

  Lemma d_closer z b c d : valid_binary 24 128 z = true -> (Z.abs b <= H)%Z -> (cz | b)%Z ->
    is32 c (tv d) ->
    b_ltb (SFabs (SFsub 24 128 z (phi b))) c = (ddist z b <? d)%Z /\
    ((ddist z b < d)%Z -> is32 (SFabs (SFsub 24 128 z (phi b))) (tv (ddist z b))).
  Proof.
    intros Vz Hb Hd Hc.
    assert (Hp : is32 (phi b) (tv b)) by (apply is_phi; auto; lia).
    pose proof (sub_valid z (phi b) Vz (proj1 Hp)) as Vs.
    unfold ddist. set (r := SFsub 24 128 z (phi b)) in *.
    assert (Va : valid_binary 24 128 (SFabs r) = true) by (destruct r; auto).
    assert (Bd : (d < 2 ^ 300)%Z).
    { pose proof (is_bound 24 128 c _ Hc) as B.
      apply Z.nle_gt. intros Hl. apply tv_le in Hl. rewrite tv_pow in Hl by lia.
      apply Rabs_lt_inv in B.
      assert (bpow radix2 128 <= bpow radix2 (300 - 149)) by (apply bpow_le; lia). lra. }
    destruct (BinarySingleNaN.is_finite_SF (SFabs r)) eqn:Fi.
    - pose proof (ticks32_is _ Va Fi) as Hi. split; [|auto]. apply d_lt; auto.
    - destruct r as [s|s| |s m e]; try discriminate Fi.
      + cbn [SFabs ticks32] in *. split; [|lia].
        destruct Hc as (_ & Fc & _).
        destruct (Z.ltb_spec (2 ^ 300) d); [lia|].
        destruct c; try discriminate Fc; reflexivity.
      + cbn [SFabs ticks32] in *. split; [|lia].
        destruct (Z.ltb_spec (2 ^ 300) d); [lia|]. reflexivity.
  Qed.

  Lemma d_near z b : valid_binary 24 128 z = true -> (Z.abs b <= H)%Z -> (cz | b)%Z ->
    b_ltb (SFabs (SFsub 24 128 z (phi b))) (SFadd 24 128 cA tA) = (ddist z b <? cz + tz)%Z.
  Proof.
    intros Vz Hb Hd. apply d_closer; auto. apply tz_bounds.
  Qed.

  Definition LockB : locked A.
  Proof.
    refine (mkLocked A (2 ^ 149) ddist same_height (fun c d => is32 c (tv d)) phi
      (fun z => valid_binary 24 128 z = true) cA tA cz tz K H
      cz_pos _ _ _ _ _ _ _ d_add d_sub d_abs _ _ d_lt_add d_gt_sub d_gt_add d_lt_sub
      d_lt_tol d_gt_tol d_mid d_below d_snap d_near d_closer d_eq).
    - apply tz_bounds.
    - pose proof cz_pos. pose proof tz_bounds. lia.
    - split; [|apply HK]. pose proof cz_pos. lia.
    - pose proof cz_pos. lia.
    - intros a x [_ Hx]. exact Hx.
    - split; [rewrite tv_0; apply is_zero|exists 0%Z; lia].
    - reflexivity.
    - intros a b x y [A1 _] [B1 _]. apply d_lt; auto.
    - intros a b x y [A1 _] [B1 _]. apply d_eq; auto.
  Defined.
End Dyadic.
