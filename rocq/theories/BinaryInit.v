(** The constructor of Grid and Init in binary32, when the cell height is a power of two. *)
From Coq Require Import ZArith List Bool Reals Lia Lra.
From Coq Require Import Floats.SpecFloat.
From Flocq Require Import Core.Zaux Core.Raux Core.Defs Core.Generic_fmt Core.FLX Core.FLT
  Core.FIX Core.Round_NE Core.Float_prop.
From Flocq Require IEEE754.BinarySingleNaN.
From Verif Require InitProofs.
From Verif Require Import Outcome Num State ModelBodySoil ModelBodyPos ModelStep Base Spec
  Spec2 Flt FltB ModelTypes ModelGeometry ModelNoise ModelProgram SpecSafe SpecBinary
  FloatBase LockNum BinaryProofs.
Import ListNotations.
Open Scope Z_scope.

Local Instance sp_pos : Prec_gt_0 24 := eq_refl.
Local Instance sp_lt : BinarySingleNaN.Prec_lt_emax 24 128 := eq_refl.
Local Instance dp_pos : Prec_gt_0 53 := eq_refl.
Local Instance dp_lt : BinarySingleNaN.Prec_lt_emax 53 1024 := eq_refl.

Section Finite.
  Variables p e : Z.
  Context (Hp : Prec_gt_0 p) (He : BinarySingleNaN.Prec_lt_emax p e).
  Notation rnd := (round radix2 (SpecFloat.fexp p e) ZnearestE).

  Lemma scaled_valid m x s : valid_binary p e (of_scaled p e s m x) = true.
  Proof.
    unfold of_scaled. rewrite (normalize_eq p e Hp He). apply BinarySingleNaN.valid_binary_B2SF.
  Qed.

  Lemma conv_valid a : valid_binary p e (b_conv p e a) = true.
  Proof. destruct a; try reflexivity. apply scaled_valid. Qed.

  (** A result that is finite is the rounded one. *)
  Lemma mul_finite a b x y : is p e a x -> is p e b y ->
    BinarySingleNaN.is_finite_SF (SFmul p e a b) = true -> is p e (SFmul p e a b) (rnd (x * y)).
  Proof.
    intros Ha Hb Hf. apply is_mul; auto. revert Hf.
    rewrite is_B in Ha, Hb by auto. destruct Ha as (u & <- & Fu & <-), Hb as (v & <- & Fv & <-).
    rewrite (mul_eq p e Hp He).
    pose proof (BinarySingleNaN.Bmult_correct p e Hp He BinarySingleNaN.mode_NE u v) as H.
    cbn [BinarySingleNaN.round_mode] in H. unfold small.
    destruct (Rlt_bool_spec (Rabs (rnd (BinarySingleNaN.B2R u * BinarySingleNaN.B2R v)))
      (bpow radix2 e)) as [L|L]; [auto|].
    rewrite H. discriminate.
  Qed.

  Lemma scaled_finite m x s : BinarySingleNaN.is_finite_SF (of_scaled p e s m x) = true ->
    is p e (of_scaled p e s m x) (rnd (F2R (Float radix2 m x))).
  Proof.
    intros Hf. apply is_scaled; auto. revert Hf. unfold of_scaled.
    rewrite (normalize_eq p e Hp He).
    pose proof (BinarySingleNaN.binary_normalize_correct p e Hp He BinarySingleNaN.mode_NE m x s) as H.
    cbn [BinarySingleNaN.round_mode] in H. unfold small.
    destruct (Rlt_bool_spec (Rabs (rnd (F2R (Float radix2 m x)))) (bpow radix2 e)) as [L|L]; [auto|].
    rewrite H. discriminate.
  Qed.

  Lemma conv_finite a : BinarySingleNaN.is_finite_SF (b_conv p e a) = true ->
    is p e (b_conv p e a) (rnd (BinarySingleNaN.SF2R radix2 a)).
  Proof.
    destruct a as [s|s| |s m x]; try discriminate.
    - intros _. cbn. rewrite round_0 by auto with typeclass_instances. apply is_zero.
    - apply scaled_finite.
  Qed.

  (** [round] gives an integer. *)
  Lemma round_int a : valid_binary p e a = true -> (emin p e <= 0)%Z -> (p < e)%Z ->
    BinarySingleNaN.is_finite_SF (b_to_int r_round p e a) = true ->
    exists n, is p e (b_to_int r_round p e a) (IZR n).
  Proof.
    intros V He0 Hpe Hf. destruct a as [s|s| |s m ex]; try discriminate.
    - exists 0. apply is_zero.
    - unfold b_to_int in *. destruct (Z.leb_spec 0 ex) as [L|L].
      + exists (cond_Zopp s (Zpos m) * 2 ^ ex). split; [auto|]. split; [reflexivity|].
        cbn. unfold F2R. cbn [Fnum Fexp]. rewrite mult_IZR.
        rewrite (IZR_Zpower radix2) by auto. reflexivity.
      + exists (r_round (cond_Zopp s (Zpos m)) (- ex)).
        apply is_of_Z; auto.
        assert (Bm : Zpos m < 2 ^ p).
        { pose proof V as V'. cbn in V'. unfold bounded in V'.
          apply andb_true_iff in V' as [V1 _]. unfold canonical_mantissa in V1.
          apply Zeq_bool_eq in V1. unfold SpecFloat.fexp in V1.
          assert (Hd : Zpos (digits2_pos m) <= p) by lia.
          pose proof (Digits.Zdigits_correct radix2 (Zpos m)) as [_ D].
          rewrite <- Digits.Zpos_digits2_pos in D.
          rewrite Z.abs_eq in D by lia. eapply Z.lt_le_trans; [exact D|].
          apply Zpower_le. exact Hd. }
        assert (S : forall n, (0 < n)%Z ->
          0 <= Z.shiftr (2 * n + Z.shiftl 1 (- ex)) (- ex + 1) <= n).
        { intros n Hn. rewrite Z.shiftr_div_pow2, Z.shiftl_mul_pow2 by lia.
          rewrite Z.pow_add_r by lia.
          assert (P : 2 <= 2 ^ (- ex)).
          { change 2 with (2 ^ 1) at 1. apply Z.pow_le_mono_r; lia. }
          set (u := 2 ^ (- ex)) in *. clearbody u.
          split; [apply Z.div_pos; lia|].
          apply Z.div_le_upper_bound; nia. }
        unfold r_round. destruct s; cbn [cond_Zopp].
        * pose proof (S (Zpos m) ltac:(lia)). destruct (Z.leb_spec 0 (- Zpos m)); [lia|].
          replace (- - Zpos m) with (Zpos m) by lia. lia.
        * pose proof (S (Zpos m) ltac:(lia)). destruct (Z.leb_spec 0 (Zpos m)); [|lia].
          lia.
  Qed.
End Finite.

(** Rounding keeps the multiples of a power of two. *)
Lemma round_FIX p e k x : Prec_gt_0 p -> generic_format radix2 (FIX_exp k) x ->
  generic_format radix2 (FIX_exp k) (round radix2 (SpecFloat.fexp p e) ZnearestE x).
Proof.
  intros Hp Hx. apply generic_round_generic; auto with typeclass_instances.
  - apply FLT_exp_valid; auto.
Qed.

Lemma FIX_tv w n : 0 <= w -> generic_format radix2 (FIX_exp (w - 149)) (IZR n * tv (2 ^ w)).
Proof.
  intros Hw. apply generic_format_FIX. exists (Float radix2 n (w - 149)); [|reflexivity].
  rewrite tv_pow by auto. reflexivity.
Qed.

Lemma FIX_inv w x : 0 <= w -> generic_format radix2 (FIX_exp (w - 149)) x ->
  exists n, x = tv (n * 2 ^ w).
Proof.
  intros Hw Hx. apply FIX_format_generic in Hx. destruct Hx as [f Ef Xf].
  exists (Fnum f). rewrite tv_F2R by auto. rewrite Ef. destruct f as [m x']. cbn in *. subst. reflexivity.
Qed.

(** [cell_size_z * round(q)]. *)
Lemma snap_whole w c q : 0 <= w <= 250 -> finite32 c -> ticks32 c = 2 ^ w ->
  finite32 (b_conv 24 128
    (SFmul 53 1024 (b_conv 53 1024 c) (b_to_int r_round 53 1024 (b_conv 53 1024 q)))) ->
  whole w (b_conv 24 128
    (SFmul 53 1024 (b_conv 53 1024 c) (b_to_int r_round 53 1024 (b_conv 53 1024 q)))).
Proof.
  intros Hw Hc Ec Hf. split; [exact Hf|].
  set (y := b_to_int r_round 53 1024 (b_conv 53 1024 q)) in *.
  assert (Hcd : is64 (b_conv 53 1024 c) (tv (2 ^ w))).
  { assert (Fm : fmt64 (tv (2 ^ w))) by (rewrite <- (Z.mul_1_l (2 ^ w)); apply fmt64_tv; lia).
    rewrite <- (rnd_id 53 1024 (tv (2 ^ w))) by auto.
    destruct (finite32_is _ Hc) as (_ & Fi & Ev). rewrite Ec in Ev.
    apply conv_is; auto with typeclass_instances. apply small64.
    apply bpow_127_1023. apply tv_bound. rewrite Z.abs_eq by (apply Z.pow_nonneg; lia).
    apply Z.pow_le_mono_r; lia. }
  assert (Hz : BinarySingleNaN.is_finite_SF (SFmul 53 1024 (b_conv 53 1024 c) y) = true).
  { destruct Hf as [_ Hf]. destruct (SFmul 53 1024 (b_conv 53 1024 c) y); auto. }
  assert (Hy : BinarySingleNaN.is_finite_SF y = true).
  { destruct y as [s|s| |s m x]; auto; exfalso; revert Hz;
      destruct Hcd as (_ & Fc & _); destruct (b_conv 53 1024 c); try discriminate. }
  destruct (round_int 53 1024 _ _ (b_conv 53 1024 q)) as [n Hn]; auto with typeclass_instances.
  { apply conv_valid; auto with typeclass_instances. }
  { vm_compute. discriminate. }
  { reflexivity. }
  fold y in Hn.
  pose proof (mul_finite 53 1024 _ _ _ _ _ _ Hcd Hn Hz) as Hm.
  assert (Hg : generic_format radix2 (FIX_exp (w - 149)) (rnd64 (tv (2 ^ w) * IZR n))).
  { apply round_FIX; [reflexivity|]. rewrite Rmult_comm. apply FIX_tv. lia. }
  destruct Hm as (_ & _ & Ev).
  assert (Hr : BinarySingleNaN.is_finite_SF (b_conv 24 128 (SFmul 53 1024 (b_conv 53 1024 c) y)) = true).
  { destruct Hf as [_ Hf]. destruct (b_conv 24 128 _); auto. }
  pose proof (conv_finite 24 128 _ _ _ Hr) as Hc'.
  rewrite Ev in Hc'.
  destruct (FIX_inv w _ ltac:(lia) (round_FIX 24 128 _ _ eq_refl Hg)) as [k Ek].
  rewrite Ek in Hc'. destruct (is_finite32 _ _ Hc') as [_ ->]. exists k. reflexivity.
Qed.

(** ** The constructor of Grid *)
Lemma trunc_int a n : is64 a (IZR n) -> b_trunc a = Some n.
Proof.
  intros (V & Fi & E). destruct a as [s|s| |s m x]; try discriminate.
  - cbn in *. apply eq_IZR in E. congruence.
  - unfold b_trunc. f_equal. destruct (Z.leb_spec 0 x) as [L|L].
    + rewrite Z.shiftl_mul_pow2 by auto. apply eq_IZR. rewrite <- E. cbn. unfold F2R. cbn [Fnum Fexp].
      rewrite <- (IZR_Zpower radix2) by auto. rewrite <- mult_IZR. f_equal.
      change (radix2 ^ x) with (2 ^ x). destruct s; cbn [cond_Zopp]; lia.
    + rewrite (finite_neg_exp s m x L) in E.
      assert (P : 0 < 2 ^ (- x)) by (apply Z.pow_pos_nonneg; lia).
      rewrite Z.shiftr_div_pow2 by lia.
      assert (EM : cond_Zopp s (Zpos m) = n * 2 ^ (- x)).
      { apply eq_IZR. rewrite mult_IZR, <- E. field. apply IZR_neq. lia. }
      destruct s; cbn [cond_Zopp] in *.
      * replace (Zpos m) with ((- n) * 2 ^ (- x)) by lia. rewrite Z.div_mul by lia. lia.
      * rewrite EM, Z.div_mul by lia. reflexivity.
Qed.

Lemma level64_of a x : is64 a (tv x) -> a <> S754_zero true -> level64 a x.
Proof.
  intros (V & Fi & Ev) Hz. split; [auto|].
  destruct a as [s|s| |s m e]; try discriminate.
  - cbn in Ev. symmetry in Ev. rewrite <- tv_0 in Ev. apply tv_inj in Ev.
    split; [destruct s; [tauto|reflexivity]|auto].
  - cbn in V. unfold bounded in V. apply andb_true_iff in V as [V _].
    unfold canonical_mantissa in V. apply Zeq_bool_eq in V. unfold fexp, emin in V.
    cbn [BinarySingleNaN.SF2R] in Ev. unfold F2R, Fnum, Fexp, tv in Ev.
    apply eq_IZR. rewrite !mult_IZR.
    rewrite !(IZR_Zpower radix2) by lia.
    replace (bpow radix2 (e + 1074)) with (bpow radix2 e * bpow radix2 1074)%R
      by (rewrite <- bpow_plus; reflexivity).
    rewrite <- Rmult_assoc, Ev, Rmult_assoc, <- bpow_plus. reflexivity.
Qed.

Lemma is_opp p e a x : is p e a x -> is p e (SFopp a) (- x).
Proof.
  intros (V & Fi & E). destruct a as [s|s| |s m ex]; try discriminate.
  - cbn in E. subst x. rewrite Ropp_0. apply is_zero.
  - split; [exact V|]. split; [reflexivity|]. cbn in *. rewrite <- E. unfold F2R. cbn [Fnum Fexp].
    rewrite Ropp_mult_distr_l, <- opp_IZR. destruct s; reflexivity.
Qed.

Lemma opp_opp a : SFopp (SFopp a) = a.
Proof. destruct a; cbn; rewrite ?negb_involutive; auto. Qed.

Lemma add_opp p e a : match a with S754_finite _ _ _ => True | _ => False end ->
  SFadd p e (SFopp a) a = S754_zero false.
Proof.
  destruct a as [s|s| |s m x]; try tauto. intros _. cbn.
  destruct s; cbn [cond_Zopp negb]; rewrite ?Z.add_opp_diag_l, ?Z.add_opp_diag_r; reflexivity.
Qed.

Lemma is_nonzero p e a x : is p e a x -> x <> 0%R ->
  match a with S754_finite _ _ _ => True | _ => False end.
Proof.
  intros (_ & Fi & E) Hx. destruct a; try discriminate; auto.
Qed.

(** A sum that is zero is the positive zero, unless both terms are zero. *)
Lemma add_pos_zero p e a b x y : Prec_gt_0 p -> BinarySingleNaN.Prec_lt_emax p e ->
  is p e a x -> is p e b y -> y <> 0%R -> (x + y)%R = 0%R -> SFadd p e a b = S754_zero false.
Proof.
  intros Hp He Ha Hb Hy E.
  assert (Eo : a = SFopp b).
  { apply (is_inj p e _ _ x); auto.
    - replace x with (- y)%R by lra. apply is_opp; auto.
    - lra. }
  subst a. apply add_opp. eapply is_nonzero; eauto.
Qed.

Lemma levels_inv {T} (f : T -> T) (d : T) : forall n (I : nat -> T -> Prop) a, I 0%nat a ->
  (forall k v, (S k < n)%nat -> I k v -> I (S k) (f v)) ->
  forall k, (k < n)%nat -> I k (nth k (levels f a n) d).
Proof.
  induction n as [|n IH]; intros I a H0 H1 k Hk; [lia|].
  destruct k as [|k]; cbn [levels nth]; [exact H0|].
  apply (IH (fun j => I (S j))); [|intros; apply H1; auto; lia|lia].
  destruct n; [lia|]. apply H1; auto. lia.
Qed.

Lemma checks_built {T} (x : built T) y : forall l n, checks n l x = Built y -> x = Built y.
Proof.
  induction l as [|b l IH]; intros n; cbn [checks]; [auto|].
  destruct b; [discriminate|apply IH].
Qed.

Section Grid.
  Variables (w hz : Z) (c sz : spec_float).
  Hypothesis Hw : 2 <= w <= 250.
  Hypothesis Hc : finite32 c.
  Hypothesis Ec : ticks32 c = 2 ^ w.
  Hypothesis Hs : finite32 sz.
  Hypothesis Es : ticks32 sz = hz * 2 ^ w.
  Hypothesis Hz : 1 <= hz < 2 ^ 20 - 1.

  Lemma pw_pos : 0 < 2 ^ w.
  Proof. apply Z.pow_pos_nonneg; lia. Qed.
  Lemma tvc_pos : (0 < tv (2 ^ w))%R.
  Proof. rewrite tv_pow by lia. apply bpow_gt_0. Qed.
  Lemma c_is : is32 c (tv (2 ^ w)).
  Proof. rewrite <- Ec. apply finite32_is; auto. Qed.
  Lemma sz_is : is32 sz (tv (hz * 2 ^ w)).
  Proof. rewrite <- Es. apply finite32_is; auto. Qed.
  Lemma pw_big n : Z.abs n <= 2 ^ 24 -> (Rabs (tv (n * 2 ^ w)) <= bpow radix2 127)%R.
  Proof.
    intros Hn. apply tv_bound. rewrite Z.abs_mul, (Z.abs_eq (2 ^ w)) by (pose proof pw_pos; lia).
    assert (2 ^ w <= 2 ^ 250) by (apply Z.pow_le_mono_r; lia). pose proof pw_pos. nia.
  Qed.
  Lemma cd_is : is64 (b_conv 53 1024 c) (tv (2 ^ w)).
  Proof.
    assert (Fm : fmt64 (tv (2 ^ w))) by (rewrite <- (Z.mul_1_l (2 ^ w)); apply fmt64_tv; lia).
    rewrite <- (rnd_id 53 1024 (tv (2 ^ w))) by auto.
    destruct c_is as (_ & Fi & Ev). apply conv_is; auto with typeclass_instances. apply small64.
    apply bpow_127_1023. rewrite <- (Z.mul_1_l (2 ^ w)). apply pw_big. lia.
  Qed.

  Lemma half_length_z : half_length (K := FltB) sz c = Ok hz.
  Proof.
    assert (Q : (tv (hz * 2 ^ w) / tv (2 ^ w))%R = IZR hz).
    { rewrite tv_mul. field. pose proof tvc_pos. lra. }
    assert (W1 : is32 (SFdiv 24 128 sz c) (IZR hz)).
    { rewrite <- (rnd_id 24 128 (IZR hz)) by (apply format_int; auto with typeclass_instances; [lia|unfold emin; lia]).
      rewrite <- Q. apply is_div; auto with typeclass_instances;
        [apply sz_is|apply c_is|pose proof tvc_pos; lra|].
      rewrite Q. apply int_small; auto with typeclass_instances; [lia|unfold emin; lia|lia]. }
    assert (W2 : is64 (b_conv 53 1024 (SFdiv 24 128 sz c)) (IZR hz)).
    { rewrite <- (rnd_id 53 1024 (IZR hz)) by (apply format_int; auto with typeclass_instances; [lia|unfold emin; lia]).
      destruct W1 as (_ & Fi & Ev). apply conv_is; auto with typeclass_instances.
      apply int_small; auto with typeclass_instances; [lia|unfold emin; lia|lia]. }
    assert (W3 : is64 (b_to_int r_round 53 1024 (b_conv 53 1024 (SFdiv 24 128 sz c))) (IZR hz)).
    { apply is_round_int; auto with typeclass_instances; [unfold emin; lia|lia|lia]. }
    unfold half_length, Flt.d_int.
    change (d_trunc (dround (wid (sdiv (f := FltB) sz c)))) with
      (b_trunc (b_to_int r_round 53 1024 (b_conv 53 1024 (SFdiv 24 128 sz c)))).
    rewrite (trunc_int _ _ W3).
    assert (I : forall n, -2147483648 <= n <= 2147483647 -> int_ok n = true).
    { intros n Hn. unfold int_ok. apply andb_true_iff. rewrite !Z.leb_le. lia. }
    rewrite I by lia. cbn [bind]. unfold chk_int. rewrite I by lia. reflexivity.
  Qed.

  Lemma first_level : level64 (b_conv 53 1024 (SFadd 24 128 (SFopp sz) c)) (2 ^ w * (1 - hz)).
  Proof.
    assert (E0 : (- tv (hz * 2 ^ w) + tv (2 ^ w))%R = tv ((1 - hz) * 2 ^ w)).
    { rewrite <- tv_opp, <- tv_add. f_equal. ring. }
    assert (W1 : is32 (SFadd 24 128 (SFopp sz) c) (tv ((1 - hz) * 2 ^ w))).
    { rewrite <- (rnd_id 24 128 (tv ((1 - hz) * 2 ^ w))) by (apply fmt_tv; lia).
      rewrite <- E0. apply is_add; auto with typeclass_instances;
        [apply is_opp, sz_is|apply c_is|].
      apply small32. rewrite E0. apply pw_big. lia. }
    apply level64_of.
    - replace (2 ^ w * (1 - hz)) with ((1 - hz) * 2 ^ w) by ring.
      rewrite <- (rnd_id 53 1024 (tv ((1 - hz) * 2 ^ w))) by (apply fmt64_tv; lia).
      destruct W1 as (_ & Fi & Ev). apply conv_is; auto with typeclass_instances. apply small64.
      apply bpow_127_1023, pw_big. lia.
    - destruct (Z.eq_dec hz 1) as [E1|N1].
      + rewrite (add_pos_zero 24 128 _ _ (- tv (hz * 2 ^ w)) (tv (2 ^ w)));
          auto with typeclass_instances; [discriminate|apply is_opp, sz_is|apply c_is| |].
        * pose proof tvc_pos. lra.
        * rewrite E0, E1. apply tv_0.
      + destruct W1 as (V & Fi & Ev).
        destruct (SFadd 24 128 (SFopp sz) c) as [s|s| |s m e] eqn:E; try discriminate.
        * exfalso. cbn in Ev. symmetry in Ev. rewrite <- tv_0 in Ev. apply tv_inj in Ev.
          pose proof pw_pos. nia.
        * intros EZ. cbn [b_conv] in EZ.
          assert (W2 : is64 (of_scaled 53 1024 s (cond_Zopp s (Z.pos m)) e) (tv ((1 - hz) * 2 ^ w))).
          { rewrite <- (rnd_id 53 1024 (tv ((1 - hz) * 2 ^ w))) by (apply fmt64_tv; lia).
            rewrite <- Ev. apply is_scaled; auto with typeclass_instances.
            change (F2R (Float radix2 (cond_Zopp s (Z.pos m)) e)) with
              (BinarySingleNaN.SF2R radix2 (S754_finite s m e)).
            rewrite Ev. apply small64. apply bpow_127_1023, pw_big. lia. }
          rewrite EZ in W2. destruct W2 as (_ & _ & E2). cbn in E2.
          rewrite <- tv_0 in E2. apply tv_inj in E2. pose proof pw_pos. nia.
  Qed.

  Lemma next_level a n : level64 a (2 ^ w * n) -> Z.abs n <= 2 ^ 22 ->
    level64 (SFadd 53 1024 a (b_conv 53 1024 c)) (2 ^ w * (n + 1)).
  Proof.
    intros Ha Hn. pose proof (level64_is _ _ Ha) as Wa.
    assert (E0 : (tv (2 ^ w * n) + tv (2 ^ w))%R = tv ((n + 1) * 2 ^ w)).
    { rewrite <- tv_add. f_equal. ring. }
    assert (W1 : is64 (SFadd 53 1024 a (b_conv 53 1024 c)) (tv ((n + 1) * 2 ^ w))).
    { rewrite <- (rnd_id 53 1024 (tv ((n + 1) * 2 ^ w))) by (apply fmt64_tv; lia).
      rewrite <- E0. apply is_add; auto with typeclass_instances; [apply cd_is|].
      apply small64, bpow_127_1023. rewrite E0. apply pw_big. lia. }
    apply level64_of; [rewrite (Z.mul_comm (2 ^ w)); exact W1|].
    intros EZ. rewrite (add_pos_zero 53 1024 _ _ (tv (2 ^ w * n)) (tv (2 ^ w))) in EZ;
      auto with typeclass_instances; [discriminate|apply cd_is| |].
    - pose proof tvc_pos. lra.
    - rewrite EZ in W1. destruct W1 as (_ & _ & E2). rewrite E0. cbn in E2. auto.
  Qed.

  Lemma grid_levels sx sy cxy g : new_grid (K := FltB) sx sy sz cxy c = Built g ->
    g_half_z g = hz /\ g_cell_z g = c /\
    forall k, 0 <= k <= 2 * hz ->
      level64 (vect_z (soil_grid g) k) (2 ^ w * (k + 1 - hz)).
  Proof.
    unfold new_grid. intros E.
    apply checks_built in E. unfold of_outcome in E.
    destruct (half_length sx cxy) as [hx| |]; try discriminate.
    destruct (half_length sy cxy) as [hy| |]; try discriminate.
    rewrite half_length_z in E. cbn [bind] in E. injection E as <-.
    cbn [g_half_z g_cell_z soil_grid vect_z g_vect_z]. split; [auto|]. split; [auto|].
    intros k Hk.
    assert (Q : level64 (nth (Z.to_nat k)
       (levels (fun v => SFadd 53 1024 v (b_conv 53 1024 c))
          (b_conv 53 1024 (SFadd 24 128 (SFopp sz) c)) (Z.to_nat (2 * hz + 1))) (S754_zero false))
       (2 ^ w * (Z.of_nat (Z.to_nat k) + 1 - hz))).
    { apply (levels_inv _ _ _ (fun j v => level64 v (2 ^ w * (Z.of_nat j + 1 - hz)))).
      - apply first_level.
      - intros j v Hj Hv. replace (Z.of_nat (S j) + 1 - hz) with ((Z.of_nat j + 1 - hz) + 1) by lia.
        apply next_level; [exact Hv|]. lia.
      - lia. }
    rewrite Z2Nat.id in Q by lia. exact Q.
  Qed.
End Grid.

(** The sizes given to the constructors are enough. *)
Lemma program_dyadic w hz sx sy sz cxy c g tan prm tol :
  2 <= w <= 250 -> finite32 c -> ticks32 c = 2 ^ w ->
  finite32 sz -> ticks32 sz = hz * 2 ^ w -> 1 <= hz < 2 ^ 20 - 1 ->
  new_grid (K := FltB) sx sy sz cxy c = Built g ->
  finite32 tol -> 4 * ticks32 tol <= 2 ^ w -> (hz + 1) * 2 ^ w <= (2 ^ 23 - 1) * ticks32 tol ->
  finite32 (dh_max tan g prm) -> 0 <= ticks32 (dh_max tan g prm) <= (2 ^ 20 - 1) * 2 ^ w ->
  dyadic w (soil_grid g) (soil_params tan g prm tol).
Proof.
  intros Hw Hc Ec Hs Es Hz Hg Ht H4 Hv Hd Hb.
  destruct (grid_levels w hz c sz Hw Hc Ec Hs Es Hz sx sy cxy g Hg) as (G1 & G2 & G3).
  unfold dyadic. cbn [soil_grid soil_params half_z State.cell_z p_tol p_dh_max].
  rewrite G1, G2. split; [lia|]. split; [auto|]. split; [auto|]. split; [lia|].
  split; [exact G3|]. split; [auto|]. split; [auto|]. split; [auto|]. split; [|auto].
  revert Hd. unfold dh_max. rewrite G2.
  apply (snap_whole w c (SFdiv 24 128 (SFmul 24 128 (g_cell_xy g) (tan (repose_angle prm))) c)); auto. lia.
Qed.

(** ** Init *)
Lemma cell_noise_form (g : ggrid FltB) amp table i j v : cell_noise g amp table i j = Ok v ->
  exists q, v = b_conv 24 128 (SFmul 53 1024 (b_conv 53 1024 (g_cell_z g))
    (b_to_int r_round 53 1024 (b_conv 53 1024 q))).
Proof.
  assert (O : forall X (x y : X), Ok x = Ok y -> y = x) by congruence.
  assert (B : forall X Y (m : outcome X) (f : X -> outcome Y) y,
    bind m f = Ok y -> exists x, f x = Ok y).
  { intros X Y m f y. destruct m as [x| |]; try discriminate. eauto. }
  unfold cell_noise. intros E.
  do 6 (apply B in E as [? E]). cbv zeta in E. eexists. exact (O _ _ _ E).
Qed.

(** What Init returns: the state of the constructor with a new terrain. *)
Lemma program_init_form (g : ggrid FltB) amp r l s :
  program_init g amp (new_sim (soil_grid g) r l) = Ok s ->
  exists t r', s = mkSim (A := NumOf FltB) (2 * g_half_x g + 1) (2 * g_half_y g + 1) false t
      (fun _ _ _ => S754_zero false) (fun _ _ _ => S754_zero false) []
      (mkArea 1 (2 * g_half_x g) 1 (2 * g_half_y g))
      (mkArea 1 (2 * g_half_x g) 1 (2 * g_half_y g))
      (mkArea 1 (2 * g_half_x g) 1 (2 * g_half_y g)) r' l /\
    forall i j, t i j = S754_zero false \/
      exists q, t i j = b_conv 24 128 (SFmul 53 1024 (b_conv 53 1024 (g_cell_z g))
        (b_to_int r_round 53 1024 (b_conv 53 1024 q))).
Proof.
  intros E. unfold program_init in E. destruct (perm_table _) as [table r'].
  set (I := fun s => exists t r', s = mkSim (A := NumOf FltB) (2 * g_half_x g + 1) (2 * g_half_y g + 1) false t
      (fun _ _ _ => S754_zero false) (fun _ _ _ => S754_zero false) []
      (mkArea 1 (2 * g_half_x g) 1 (2 * g_half_y g))
      (mkArea 1 (2 * g_half_x g) 1 (2 * g_half_y g))
      (mkArea 1 (2 * g_half_x g) 1 (2 * g_half_y g)) r' l /\
    forall i j, t i j = S754_zero false \/
      exists q, t i j = b_conv 24 128 (SFmul 53 1024 (b_conv 53 1024 (g_cell_z g))
        (b_to_int r_round 53 1024 (b_conv 53 1024 q)))).
  apply (partial_ok _ I _) in E; [exact E|]. apply for_each_partial.
  - intros [i j] s1 _ (t & r1 & -> & Ht). cbn [fst snd].
    destruct (cell_noise g amp (map Z.of_nat table) i j) as [v| |] eqn:En; cbn [bind partial]; auto.
    unfold I. eexists. exists r1. split; [reflexivity|].
    intros a b. unfold upd2. destruct (_ && _)%bool; [|apply Ht].
    right. eapply cell_noise_form; eauto.
  - unfold I. exists (fun _ _ => S754_zero false), r'. split; [reflexivity|]. auto.
Qed.

Lemma program_init_ok w (g : ggrid FltB) P amp r l s G legal near old :
  dyadic w (soil_grid g) P -> 1 <= g_half_x g -> 1 <= g_half_y g ->
  program_init g amp (new_sim (soil_grid g) r l) = Ok s ->
  (forall i j, inb s i j = true -> finite32 (terrain s i j)) ->
  heights_ok w (soil_grid g) s /\
  state_ok (read_grid (soil_grid g)) (read_geom G) legal near (read s, old).
Proof.
  intros HD Hx Hy E Hf. pose proof HD as (Hw & Hc & Ec & Hz & _).
  destruct (program_init_form _ _ _ _ _ E) as (t & r' & -> & Ht). clear E.
  cbn [terrain] in Hf.
  assert (W0 : whole w (S754_zero false)).
  { split; [split; [reflexivity|exact I]|]. apply Z.divide_0_r. }
  assert (Wt : forall i j, inb (A := NumOf FltB) (mkSim (A := NumOf FltB) (2 * g_half_x g + 1) (2 * g_half_y g + 1) false t
      (fun _ _ _ => S754_zero false) (fun _ _ _ => S754_zero false) []
      (mkArea 1 (2 * g_half_x g) 1 (2 * g_half_y g))
      (mkArea 1 (2 * g_half_x g) 1 (2 * g_half_y g))
      (mkArea 1 (2 * g_half_x g) 1 (2 * g_half_y g)) r' l) i j = true -> whole w (t i j)).
  { intros i j Hi. specialize (Hf i j Hi). destruct (Ht i j) as [->|[q Eq]]; [auto|].
    rewrite Eq in *. apply (snap_whole w (g_cell_z g)); auto. lia. }
  set (s := mkSim _ _ _ _ _ _ _ _ _ _ _ _) in *. split.
  - split; [exact Wt|]. split; [|constructor].
    intros k i j _ _. cbn [body body_soil s]. split; [exact W0|]. split; [discriminate|].
    split; [|exact W0]. cbn. pose proof (cell_pos w (soil_grid g) P HD). cbn in Hz. nia.
  - pose (t' := fun i j => if inb s i j then ticks32 (t i j) else 0).
    apply (agree_state_ok _ _ _ _ (InitProofs.with_terrain t'
      (new_sim (A := ZNum units32) (read_grid (soil_grid g)) r' l))).
    + repeat split. intros i j Hij. cbn. unfold t'.
      assert (Ei : inb s i j = true).
      { unfold on_grid in Hij. cbn in Hij. unfold inb. cbn.
        rewrite !andb_true_iff, !Z.leb_le, !Z.ltb_lt. lia. }
      rewrite Ei. reflexivity.
    + apply InitProofs.with_terrain_ok.
      * apply (grid_read_ok w _ P HD); cbn; lia.
      * intros i j. cbn. unfold t', aligned. cbn in Ec. rewrite Ec.
        destruct (inb s i j) eqn:Ei; [|apply Z.divide_0_r]. apply Wt. exact Ei.
Qed.

Lemma program32 w d t k (g : ggrid FltB) b tan prm tol lines legal near amp r l s old ps :
  let G := program k g b tol (cell_buffer prm) lines in
  let P := soil_params tan g prm tol in
  dyadic w (soil_grid g) P -> size_ok (soil_grid g) P ->
  poses_ok (soil_grid g) G legal near -> walls_fit w d (soil_grid g) G legal near ->
  Forall legal ps ->
  program_init g amp (new_sim (soil_grid g) r l) = Ok s ->
  (forall i j, inb s i j = true -> finite32 (terrain s i j)) ->
  fits w d t (soil_grid g) s ->
  exists s1 old1,
    (exists fuel0, forall fuel, (fuel0 <= fuel)%nat ->
       run G (soil_grid g) P fuel ps (s, old) = Ok (s1, old1)) /\
    heights_ok w (soil_grid g) s1 /\
    state_ok (read_grid (soil_grid g)) (read_geom G) legal near (read s1, old1) /\
    balanced (read s) (read s1).
Proof.
  intros G P HD HS HP HW Hl E Hf Hfit.
  destruct (program_init_ok w g P amp r l s G legal near old HD (proj1 HS) (proj1 (proj2 HS)) E Hf)
    as [Hh Hs].
  destruct (run32 w (soil_grid g) P HD d t G legal near HS HP HW ps s old Hh Hfit Hs Hl)
    as (s1 & s1' & old1 & (fuel0 & Hr) & _ & H1 & _ & H2 & H3).
  exists s1, old1. split; [|auto]. exists fuel0. intros fuel Hfu. apply (Hr fuel Hfu).
Qed.

(** ** The operations give numbers of the format *)
Section Valid.
  Variables p e : Z.
  Context (Hp : Prec_gt_0 p) (He : BinarySingleNaN.Prec_lt_emax p e).
  Notation val := (valid_binary p e).
  Ltac lift a Ha := rewrite <- (BinarySingleNaN.B2SF_SF2B p e a Ha).

  Lemma valid_add a b : val a = true -> val b = true -> val (SFadd p e a b) = true.
  Proof.
    intros Ha Hb. lift a Ha. lift b Hb. rewrite (add_eq p e Hp He).
    apply BinarySingleNaN.valid_binary_B2SF.
  Qed.
  Lemma valid_sub a b : val a = true -> val b = true -> val (SFsub p e a b) = true.
  Proof.
    intros Ha Hb. lift a Ha. lift b Hb. rewrite (sub_eq p e Hp He).
    apply BinarySingleNaN.valid_binary_B2SF.
  Qed.
  Lemma valid_mul a b : val a = true -> val b = true -> val (SFmul p e a b) = true.
  Proof.
    intros Ha Hb. lift a Ha. lift b Hb. rewrite (mul_eq p e Hp He).
    apply BinarySingleNaN.valid_binary_B2SF.
  Qed.
  Lemma valid_div a b : val a = true -> val b = true -> val (SFdiv p e a b) = true.
  Proof.
    intros Ha Hb. lift a Ha. lift b Hb. rewrite (div_eq p e Hp He).
    apply BinarySingleNaN.valid_binary_B2SF.
  Qed.
  Lemma valid_opp a : val a = true -> val (SFopp a) = true.
  Proof. destruct a; auto. Qed.
End Valid.

Ltac valids :=
  repeat first
    [ assumption | reflexivity
    | apply valid_add; [reflexivity|reflexivity| |]
    | apply valid_sub; [reflexivity|reflexivity| |]
    | apply valid_mul; [reflexivity|reflexivity| |]
    | apply valid_div; [reflexivity|reflexivity| |]
    | apply valid_opp ].

Lemma rotation_valid (o : quat spec_float) (x : vec spec_float) :
  vec32 x -> pose32 (x, o) -> vec32 (calc_rotation_quaternion (K := FltB) o x).
Proof.
  intros (X1 & X2 & X3) (_ & O1 & O2 & O3 & O4). cbn [fst snd] in *.
  unfold calc_rotation_quaternion, multiply_quaternion, vec32.
  cbn [qw qx qy qz vx vy vz sadd ssub smul sdiv sopp FltB]. unfold sp, se, s0, s_of_Z. cbn [FltB].
  split; [|split]; valids.
Qed.

Lemma place_valid (pos : vec spec_float) (o : quat spec_float) (x : vec spec_float) :
  vec32 x -> pose32 (pos, o) -> vec32 (place (K := FltB) pos o x).
Proof.
  intros Hx Hp. destruct (rotation_valid o x Hx) as (R1 & R2 & R3).
  { destruct Hp as (_ & Hp). split; auto. }
  destruct Hp as ((P1 & P2 & P3) & _). cbn [fst snd] in *.
  unfold place, vmap2, vec32. cbn [vx vy vz]. cbn [sadd FltB]. unfold sp, se.
  split; [|split]; valids.
Qed.

Lemma ok_eq {X} (x y : X) : Ok x = Ok y -> y = x.
Proof. congruence. Qed.

Lemma preloc_z {K : flt} (g : ggrid K) b o p x r :
  preloc g b o p x = Ok r -> r_z r = vz (place (fst p) (snd p) x).
Proof.
  unfold preloc, move_cell. cbv zeta. intros E. apply bind_ok in E as (m & Em & E).
  apply ok_eq in E. subst r. cbn [r_z].
  apply bind_ok in Em as (i & _ & Em). apply bind_ok in Em as (j & _ & Em).
  apply ok_eq in Em. subst m. reflexivity.
Qed.

Lemma program_reloc {K : flt} k (g : ggrid K) b tol buffer lines o p x :
  g_reloc (program k g b tol buffer lines) o p x = preloc g b o p x.
Proof. reflexivity. Qed.

Lemma program_walls w d k (g : ggrid FltB) b tol buffer lines legal near P :
  let G := program k g b tol buffer lines in
  dyadic w (soil_grid g) P -> poses_ok (soil_grid g) G legal near ->
  (forall p, legal p -> pose32 p) -> (forall x, near x -> vec32 x) ->
  g_half_z g * 2 ^ w <= d -> walls_fit w d (soil_grid g) G legal near.
Proof.
  intros G HD [HP _] Hl Hn Hd. pose proof (cell_pos w _ P HD) as Hc. split.
  - intros p a walls ll i j kk Hp E Il Ic. destruct (HP p Hp) as (a' & walls' & E' & _ & _ & Hw).
    rewrite E in E'. injection E' as <- <-. destruct (Hw ll i j kk Il Ic) as (_ & Hk & _).
    change (half_z (soil_grid g)) with (g_half_z g) in *. nia.
  - intros o p x r Ho Hp Hx E. 
    destruct (place_valid (fst p) (snd p) x (Hn x Hx)) as (_ & _ & V).
    { destruct p; apply Hl; auto. }
    unfold G in E. rewrite program_reloc in E.
    assert (Q : r_z r = vz (place (K := FltB) (fst p) (snd p) x)) by exact (preloc_z g b o p x r E).
    exact (eq_trans (f_equal (valid_binary 24 128) Q) V).
Qed.

(** Constructors, Init and calls of Step. *)
Lemma program32_built w hz d t k sx sy sz cxy cz (g : ggrid FltB) b tan prm tol lines
  legal near amp r l s old ps :
  let G := program k g b tol (cell_buffer prm) lines in
  let P := soil_params tan g prm tol in
  2 <= w <= 250 -> finite32 cz -> ticks32 cz = 2 ^ w ->
  finite32 sz -> ticks32 sz = hz * 2 ^ w -> 1 <= hz < 2 ^ 20 - 1 ->
  finite32 tol -> 4 * ticks32 tol <= 2 ^ w -> (hz + 1) * 2 ^ w <= (2 ^ 23 - 1) * ticks32 tol ->
  new_grid (K := FltB) sx sy sz cxy cz = Built g ->
  finite32 (dh_max tan g prm) -> 0 <= ticks32 (dh_max tan g prm) <= (2 ^ 20 - 1) * 2 ^ w ->
  size_ok (soil_grid g) P -> poses_ok (soil_grid g) G legal near ->
  (forall p, legal p -> pose32 p) -> (forall x, near x -> vec32 x) -> Forall legal ps ->
  program_init g amp (new_sim (soil_grid g) r l) = Ok s ->
  (forall i j, inb s i j = true -> finite32 (terrain s i j)) ->
  hz * 2 ^ w <= d -> fits w d t (soil_grid g) s ->
  exists s1 old1,
    (exists fuel0, forall fuel, (fuel0 <= fuel)%nat ->
       run G (soil_grid g) P fuel ps (s, old) = Ok (s1, old1)) /\
    heights_ok w (soil_grid g) s1 /\
    state_ok (read_grid (soil_grid g)) (read_geom G) legal near (read s1, old1) /\
    balanced (read s) (read s1).
Proof.
  intros G P Hw Hc Ec Hs Es Hz Ht H4 Hv Hg Hd Hb HS HP Hl Hn Hps E Hf Hdep Hfit.
  assert (HD : dyadic w (soil_grid g) P) 
    by (apply (program_dyadic w hz sx sy sz cxy cz); auto).
  destruct (grid_levels w hz cz sz Hw Hc Ec Hs Es Hz sx sy cxy g Hg) as (G1 & _).
  assert (HW : walls_fit w d (soil_grid g) G legal near).
  { apply (program_walls w d k g b tol (cell_buffer prm) lines legal near P); auto. rewrite G1. auto. }
  exact (program32 w d t k g b tan prm tol lines legal near amp r l s old ps HD HS HP HW Hps E Hf Hfit).
Qed.

Lemma program_init_fits w d t (g : ggrid FltB) amp r l s :
  program_init g amp (new_sim (soil_grid g) r l) = Ok s -> 0 <= d -> 0 <= t ->
  (forall i j, inb s i j = true -> - d <= ticks32 (terrain s i j)) -> total_soil (read s) <= t ->
  2 * ((g_half_z g + 1) * 2 ^ w + d + t + nx s * ny s * d) <= (2 ^ 20 - 1) * 2 ^ w ->
  fits w d t (soil_grid g) s.
Proof.
  intros E Hd Ht Hi Hs Hr. split; [auto|]. split; [auto|]. split; [auto|]. split; [|auto].
  destruct (program_init_form _ _ _ _ _ E) as (t' & r' & -> & _). intros k i j _ _. cbn. lia.
Qed.
