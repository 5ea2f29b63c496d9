(** What the operations of FltB.v compute, as real numbers (by the Flocq library). *)
From Coq Require Import ZArith Bool Reals Lia Lra.
From Coq Require Import Floats.SpecFloat.
From Flocq Require Import Core.Zaux Core.Raux Core.Defs Core.Generic_fmt Core.FLX Core.FLT
  Core.Round_NE Core.Float_prop Core.Digits.
From Flocq Require IEEE754.BinarySingleNaN Calc.Round.
From Verif Require Import FltB.
Open Scope R_scope.

Section Format.
  Variables p e : Z.
  Context (Hp : Prec_gt_0 p) (He : BinarySingleNaN.Prec_lt_emax p e).

  Notation fexp := (SpecFloat.fexp p e).
  Notation rnd := (round radix2 fexp ZnearestE).

  (** The datum [a] of the format is the number [x]. *)
  Definition is (a : spec_float) (x : R) : Prop :=
    valid_binary p e a = true /\ BinarySingleNaN.is_finite_SF a = true /\ BinarySingleNaN.SF2R radix2 a = x.

  Local Instance fexp_ok : Valid_exp fexp := FLT_exp_valid (emin p e) p.

  Lemma is_B (a : spec_float) (x : R) :
    is a x <-> exists b : BinarySingleNaN.binary_float p e,
      BinarySingleNaN.B2SF b = a /\ BinarySingleNaN.is_finite b = true /\ BinarySingleNaN.B2R b = x.
  Proof.
    split.
    - intros (V & Fi & E). exists (BinarySingleNaN.SF2B a V).
      split; [apply BinarySingleNaN.B2SF_SF2B|]. rewrite BinarySingleNaN.is_finite_SF2B, BinarySingleNaN.B2R_SF2B. auto.
    - intros (b & <- & Fi & E). split; [apply BinarySingleNaN.valid_binary_B2SF|].
      rewrite BinarySingleNaN.is_finite_SF_B2SF, BinarySingleNaN.SF2R_B2SF. auto.
  Qed.

  Lemma round_aux_eq sx mx ex lx :
    SpecFloat.binary_round_aux p e sx mx ex lx =
    BinarySingleNaN.binary_round_aux p e BinarySingleNaN.mode_NE sx mx ex lx.
  Proof.
    assert (N : forall s m l, round_nearest_even m l = BinarySingleNaN.choice_mode BinarySingleNaN.mode_NE s m l).
    { intros s m [|[| |]]; try reflexivity. cbn. unfold Round.cond_incr.
      destruct (Z.even m); reflexivity. }
    unfold SpecFloat.binary_round_aux, BinarySingleNaN.binary_round_aux.
    destruct (shr_fexp p e mx ex lx) as [m' e']. cbn.
    rewrite (N sx). reflexivity.
  Qed.

  Lemma round_eq s m x :
    SpecFloat.binary_round p e s m x = BinarySingleNaN.binary_round p e BinarySingleNaN.mode_NE s m x.
  Proof.
    unfold SpecFloat.binary_round, BinarySingleNaN.binary_round, BinarySingleNaN.shl_align_fexp.
    destruct (shl_align m x _). apply round_aux_eq.
  Qed.

  Lemma normalize_eq m x z :
    SpecFloat.binary_normalize p e m x z =
    BinarySingleNaN.B2SF (BinarySingleNaN.binary_normalize p e Hp He BinarySingleNaN.mode_NE m x z).
  Proof.
    destruct m as [|m|m]; cbn; [reflexivity| |]; rewrite BinarySingleNaN.B2SF_SF2B; apply round_eq.
  Qed.

  Lemma add_eq (x y : BinarySingleNaN.binary_float p e) :
    SFadd p e (BinarySingleNaN.B2SF x) (BinarySingleNaN.B2SF y) = BinarySingleNaN.B2SF (BinarySingleNaN.Bplus BinarySingleNaN.mode_NE x y).
  Proof.
    destruct x as [sx|sx| |sx mx ex Bx], y as [sy|sy| |sy my ey By];
      try reflexivity; try (cbn; destruct (Bool.eqb sx sy); reflexivity).
    cbn. apply normalize_eq.
  Qed.

  Lemma sub_eq (x y : BinarySingleNaN.binary_float p e) :
    SFsub p e (BinarySingleNaN.B2SF x) (BinarySingleNaN.B2SF y) = BinarySingleNaN.B2SF (BinarySingleNaN.Bminus BinarySingleNaN.mode_NE x y).
  Proof.
    destruct x as [sx|sx| |sx mx ex Bx], y as [sy|sy| |sy my ey By];
      try reflexivity; try (cbn; destruct (Bool.eqb sx (negb sy)); reflexivity).
    cbn. unfold Zminus. rewrite <- cond_Zopp_negb. apply normalize_eq.
  Qed.

  Lemma mul_eq (x y : BinarySingleNaN.binary_float p e) :
    SFmul p e (BinarySingleNaN.B2SF x) (BinarySingleNaN.B2SF y) = BinarySingleNaN.B2SF (BinarySingleNaN.Bmult BinarySingleNaN.mode_NE x y).
  Proof.
    destruct x as [sx|sx| |sx mx ex Bx], y as [sy|sy| |sy my ey By]; try reflexivity.
    cbn. rewrite BinarySingleNaN.B2SF_SF2B. apply round_aux_eq.
  Qed.

  Lemma div_eq (x y : BinarySingleNaN.binary_float p e) :
    SFdiv p e (BinarySingleNaN.B2SF x) (BinarySingleNaN.B2SF y) = BinarySingleNaN.B2SF (BinarySingleNaN.Bdiv BinarySingleNaN.mode_NE x y).
  Proof.
    destruct x as [sx|sx| |sx mx ex Bx], y as [sy|sy| |sy my ey By]; try reflexivity.
    cbn. rewrite BinarySingleNaN.B2SF_SF2B.
    destruct (SFdiv_core_binary p e (Z.pos mx) ex (Z.pos my) ey) as [[mz ez] lz].
    apply round_aux_eq.
  Qed.

  Definition small (x : R) : Prop := Rabs (rnd x) < bpow radix2 e.

  Lemma is_add a b x y : is a x -> is b y -> small (x + y) ->
    is (SFadd p e a b) (rnd (x + y)).
  Proof.
    rewrite !is_B. intros (u & <- & Fu & <-) (v & <- & Fv & <-) S.
    exists (BinarySingleNaN.Bplus BinarySingleNaN.mode_NE u v). split; [symmetry; apply add_eq|].
    pose proof (BinarySingleNaN.Bplus_correct p e Hp He BinarySingleNaN.mode_NE u v Fu Fv) as H.
    cbn [BinarySingleNaN.round_mode] in H. rewrite Rlt_bool_true in H by exact S.
    destruct H as (H1 & H2 & _). auto.
  Qed.

  Lemma is_sub a b x y : is a x -> is b y -> small (x - y) ->
    is (SFsub p e a b) (rnd (x - y)).
  Proof.
    rewrite !is_B. intros (u & <- & Fu & <-) (v & <- & Fv & <-) S.
    exists (BinarySingleNaN.Bminus BinarySingleNaN.mode_NE u v). split; [symmetry; apply sub_eq|].
    pose proof (BinarySingleNaN.Bminus_correct p e Hp He BinarySingleNaN.mode_NE u v Fu Fv) as H.
    cbn [BinarySingleNaN.round_mode] in H. rewrite Rlt_bool_true in H by exact S.
    destruct H as (H1 & H2 & _). auto.
  Qed.

  Lemma is_mul a b x y : is a x -> is b y -> small (x * y) ->
    is (SFmul p e a b) (rnd (x * y)).
  Proof.
    rewrite !is_B. intros (u & <- & Fu & <-) (v & <- & Fv & <-) S.
    exists (BinarySingleNaN.Bmult BinarySingleNaN.mode_NE u v). split; [symmetry; apply mul_eq|].
    pose proof (BinarySingleNaN.Bmult_correct p e Hp He BinarySingleNaN.mode_NE u v) as H.
    cbn [BinarySingleNaN.round_mode] in H. rewrite Rlt_bool_true in H by exact S.
    destruct H as (H1 & H2 & _). rewrite H2, Fu, Fv. auto.
  Qed.

  Lemma is_div a b x y : is a x -> is b y -> y <> 0 -> small (x / y) ->
    is (SFdiv p e a b) (rnd (x / y)).
  Proof.
    rewrite !is_B. intros (u & <- & Fu & <-) (v & <- & Fv & <-) N S.
    exists (BinarySingleNaN.Bdiv BinarySingleNaN.mode_NE u v). split; [symmetry; apply div_eq|].
    pose proof (BinarySingleNaN.Bdiv_correct p e Hp He BinarySingleNaN.mode_NE u v N) as H.
    cbn [BinarySingleNaN.round_mode] in H. rewrite Rlt_bool_true in H by exact S.
    destruct H as (H1 & H2 & _). rewrite H2, Fu. auto.
  Qed.

  Lemma is_scaled m x s : small (F2R (Float radix2 m x)) ->
    is (of_scaled p e s m x) (rnd (F2R (Float radix2 m x))).
  Proof.
    intros S. rewrite is_B. exists (BinarySingleNaN.binary_normalize p e Hp He BinarySingleNaN.mode_NE m x s).
    split; [symmetry; apply normalize_eq|].
    pose proof (BinarySingleNaN.binary_normalize_correct p e Hp He BinarySingleNaN.mode_NE m x s) as H.
    cbv zeta in H. cbn [BinarySingleNaN.round_mode] in H. rewrite Rlt_bool_true in H by exact S.
    destruct H as (H1 & H2 & _). auto.
  Qed.

  Lemma is_compare a b x y : is a x -> is b y -> SFcompare a b = Some (Rcompare x y).
  Proof.
    rewrite !is_B. intros (u & <- & Fu & <-) (v & <- & Fv & <-).
    apply (BinarySingleNaN.Bcompare_correct p e); auto.
  Qed.

  Lemma is_ltb a b x y : is a x -> is b y -> b_ltb a b = Rlt_bool x y.
  Proof.
    intros H1 H2. unfold b_ltb. rewrite (is_compare _ _ _ _ H1 H2).
    destruct (Rcompare_spec x y); symmetry;
      [apply Rlt_bool_true|apply Rlt_bool_false|apply Rlt_bool_false]; lra.
  Qed.

  Lemma is_eqb a b x y : is a x -> is b y -> b_eqb a b = Req_bool x y.
  Proof.
    intros H1 H2. unfold b_eqb. rewrite (is_compare _ _ _ _ H1 H2).
    destruct (Rcompare_spec x y); symmetry;
      [apply Req_bool_false|apply Req_bool_true|apply Req_bool_false]; lra.
  Qed.

  Lemma is_abs a x : is a x -> is (SFabs a) (Rabs x).
  Proof.
    rewrite !is_B. intros (u & <- & Fu & <-). exists (BinarySingleNaN.Babs u).
    rewrite BinarySingleNaN.is_finite_Babs, BinarySingleNaN.B2R_Babs. split; [|auto].
    destruct u; reflexivity.
  Qed.

  Lemma is_zero s : is (S754_zero s) 0.
  Proof. split; [reflexivity|]. split; reflexivity. Qed.

  (** Only zero has two representations. *)
  Lemma is_inj a b x : is a x -> is b x -> x <> 0 -> a = b.
  Proof.
    rewrite !is_B. intros (u & <- & Fu & <-) (v & <- & Fv & E) N.
    f_equal. apply BinarySingleNaN.B2R_inj; auto.
    - destruct u; cbn in Fu, N |- *; congruence.
    - rewrite <- E in N. destruct v; cbn in Fv, N |- *; congruence.
  Qed.

  Lemma is_zero_sign a : is a 0 -> a = S754_zero (b_neg a).
  Proof.
    intros (V & Fi & E). destruct a as [s|s| |s m x]; cbn in *; try discriminate; auto.
    exfalso. apply eq_0_F2R in E. destruct s; discriminate.
  Qed.

  Lemma is_format a x : is a x -> generic_format radix2 fexp x.
  Proof.
    rewrite is_B. intros (u & _ & _ & <-). apply BinarySingleNaN.generic_format_B2R; auto.
  Qed.

  Lemma is_bound a x : is a x -> Rabs x < bpow radix2 e.
  Proof.
    rewrite is_B. intros (u & _ & _ & <-). apply BinarySingleNaN.abs_B2R_lt_emax.
  Qed.

  (** Numbers of at most [p] bits are in the format. *)
  Lemma format_scaled m x : (Z.abs m <= 2 ^ p)%Z -> (emin p e <= x)%Z ->
    generic_format radix2 fexp (F2R (Float radix2 m x)).
  Proof.
    intros Hm Hx. apply generic_format_FLT.
    pose proof Hp as Hp'. unfold Prec_gt_0 in Hp'.
    destruct (Z.eq_dec (Z.abs m) (2 ^ p)) as [E|N].
    - exists (Float radix2 (Z.sgn m) (x + p)).
      + unfold F2R. cbn. rewrite bpow_plus.
        assert (IZR m = IZR (Z.sgn m) * bpow radix2 p) as ->; [|ring].
        rewrite <- (IZR_Zpower radix2) by lia. rewrite <- mult_IZR. f_equal.
        change (Z.pow (radix_val radix2) p) with (2 ^ p)%Z. rewrite <- E.
        destruct m; cbn; lia.
      + cbn. change (Zpower (radix_val radix2) p) with (2 ^ p)%Z.
        assert (2 ^ 1 <= 2 ^ p)%Z by (apply Z.pow_le_mono_r; lia).
        destruct m; cbn; lia.
      + cbn. lia.
    - exists (Float radix2 m x); [reflexivity| |exact Hx].
      cbn. change (Zpower (radix_val radix2) p) with (2 ^ p)%Z. lia.
  Qed.

  Lemma rnd_id x : generic_format radix2 fexp x -> rnd x = x.
  Proof. intros H. apply round_generic; [auto with typeclass_instances|exact H]. Qed.

  Lemma rnd_le x y : x <= y -> rnd x <= rnd y.
  Proof. apply round_le; auto with typeclass_instances. Qed.

  Lemma rnd_ge_format x y : generic_format radix2 fexp y -> y <= x -> y <= rnd x.
  Proof. intros Fy H. rewrite <- (rnd_id y Fy). apply rnd_le; auto. Qed.
  Lemma rnd_le_format x y : generic_format radix2 fexp y -> x <= y -> rnd x <= y.
  Proof. intros Fy H. rewrite <- (rnd_id y Fy). apply rnd_le; auto. Qed.

  (** Conversion from another format. *)
  Lemma conv_is a x : BinarySingleNaN.is_finite_SF a = true ->
    BinarySingleNaN.SF2R radix2 a = x -> small x -> is (b_conv p e a) (rnd x).
  Proof.
    intros Fi <- S. destruct a as [s|s| |s m ex]; try discriminate.
    - cbn in *. rewrite round_0 by auto with typeclass_instances. apply is_zero.
    - apply is_scaled. exact S.
  Qed.

  Lemma F2R_int k : F2R (Float radix2 k 0) = IZR k.
  Proof. unfold F2R. cbn. ring. Qed.

  Lemma format_int k : (Z.abs k <= 2 ^ p)%Z -> (emin p e <= 0)%Z ->
    generic_format radix2 fexp (IZR k).
  Proof. intros Hk He0. rewrite <- F2R_int. apply format_scaled; auto. Qed.

  Lemma int_small k : (Z.abs k <= 2 ^ p)%Z -> (emin p e <= 0)%Z -> (p < e)%Z -> small (IZR k).
  Proof.
    intros Hk He0 Hpe. unfold small. rewrite rnd_id by (apply format_int; auto).
    rewrite <- abs_IZR. apply Rle_lt_trans with (IZR (2 ^ p)); [apply IZR_le; auto|].
    change (2 ^ p)%Z with (Zpower radix2 p). rewrite IZR_Zpower; [apply bpow_lt; auto|].
    unfold Prec_gt_0 in Hp. lia.
  Qed.

  Lemma is_of_Z k s : (Z.abs k <= 2 ^ p)%Z -> (emin p e <= 0)%Z -> (p < e)%Z ->
    is (of_scaled p e s k 0) (IZR k).
  Proof.
    intros Hk He0 Hpe. rewrite <- (rnd_id (IZR k)) by (apply format_int; auto).
    rewrite <- F2R_int. apply is_scaled. rewrite F2R_int. apply int_small; auto.
  Qed.

  Lemma finite_neg_exp s m x : (x < 0)%Z ->
    BinarySingleNaN.SF2R radix2 (S754_finite s m x) =
    IZR (cond_Zopp s (Zpos m)) / IZR (2 ^ (- x)).
  Proof.
    intros Hx. cbn. unfold F2R. cbn [Fnum Fexp]. unfold Rdiv. f_equal.
    change (2 ^ (- x))%Z with (Zpower radix2 (- x)). rewrite IZR_Zpower by lia.
    rewrite <- bpow_opp. f_equal. lia.
  Qed.

  Lemma is_floor a x : is a x -> (emin p e <= 0)%Z -> (p < e)%Z ->
    Rabs x <= IZR (2 ^ p) -> is (b_to_int r_floor p e a) (IZR (Zfloor x)).
  Proof.
    intros Ha He0 Hpe Hb. pose proof Ha as (V & Fi & E).
    assert (Hf : (Z.abs (Zfloor x) <= 2 ^ p)%Z).
    { apply Rabs_le_inv in Hb. destruct Hb as [B1 B2].
      apply Z.abs_le. split.
      - apply Zfloor_lub. rewrite opp_IZR. auto.
      - apply le_IZR. apply Rle_trans with x; [apply Zfloor_lb|auto]. }
    destruct a as [s|s| |s m ex]; try discriminate.
    - cbn in E. subst x. rewrite Zfloor_IZR. apply is_zero.
    - unfold b_to_int. destruct (Z.leb_spec 0 ex).
      + assert (Ei : x = IZR (cond_Zopp s (Zpos m) * 2 ^ ex)).
        { rewrite <- E. cbn. unfold F2R. cbn [Fnum Fexp]. rewrite mult_IZR.
          change (2 ^ ex)%Z with (Zpower radix2 ex). rewrite IZR_Zpower by auto. reflexivity. }
        rewrite Ei, Zfloor_IZR, <- Ei. exact Ha.
      + rewrite (finite_neg_exp s m ex H) in E.
        assert (Ez : Zfloor x = r_floor (cond_Zopp s (Zpos m)) (- ex)).
        { rewrite <- E. rewrite Zfloor_div; [|apply Z.pow_nonzero; lia].
          unfold r_floor. rewrite Z.shiftr_div_pow2 by lia. reflexivity. }
        rewrite Ez in *. apply is_of_Z; auto.
  Qed.

  (** [round] does nothing to an integer. *)
  Lemma is_round_int a k : is a (IZR k) -> (emin p e <= 0)%Z -> (p < e)%Z ->
    (Z.abs k <= 2 ^ p)%Z -> is (b_to_int r_round p e a) (IZR k).
  Proof.
    intros Ha He0 Hpe Hb. pose proof Ha as (V & Fi & E).
    destruct a as [s|s| |s m ex]; try discriminate; [exact Ha|].
    unfold b_to_int. destruct (Z.leb_spec 0 ex); [exact Ha|].
    rewrite (finite_neg_exp s m ex H) in E.
    set (M := cond_Zopp s (Zpos m)) in *.
    assert (P : (0 < 2 ^ (- ex))%Z) by (apply Z.pow_pos_nonneg; lia).
    assert (EM : M = (k * 2 ^ (- ex))%Z).
    { apply eq_IZR. rewrite mult_IZR, <- E. field. apply IZR_neq. lia. }
    assert (Er : r_round M (- ex) = k).
    { assert (S : forall n, (0 <= n)%Z ->
        Z.shiftr (2 * (n * 2 ^ (- ex)) + Z.shiftl 1 (- ex)) (- ex + 1) = n).
      { intros n Hn. rewrite Z.shiftr_div_pow2, Z.shiftl_mul_pow2 by lia.
        rewrite Z.pow_add_r by lia. set (u := (2 ^ (- ex))%Z) in *.
        symmetry. apply Z.div_unique with u; lia. }
      unfold r_round. rewrite EM. destruct (Z.leb_spec 0 (k * 2 ^ (- ex))).
      - apply S. nia.
      - replace (- (k * 2 ^ (- ex)))%Z with ((- k) * 2 ^ (- ex))%Z by ring.
        rewrite S by nia. lia. }
    rewrite Er. apply is_of_Z; auto.
  Qed.
End Format.

Arguments is p e a x : clear implicits.
