(** The runs in binary32 on a grid whose cell height is a power of two. *)
From Coq Require Import ZArith List Bool Reals Lia Lra.
From Coq Require Import Floats.SpecFloat.
From Flocq Require Import Core.Zaux Core.Raux Core.Defs Core.Generic_fmt Core.FLX Core.FLT
  Core.Round_NE Core.Float_prop.
From Flocq Require IEEE754.BinarySingleNaN.
From Verif Require Import Outcome Num State ModelBodySoil ModelBodyPos ModelStep Base Spec
  Spec2 InvBase RelaxBase StepProofs Flt FltB ModelTypes ModelProgram SpecSafe SpecBinary
  FloatBase LockBase LockBound LockIntersect LockBodySoil LockStep LockNum.
Import ListNotations.
Open Scope Z_scope.

Local Instance sp_pos : Prec_gt_0 24 := eq_refl.
Local Instance sp_lt : BinarySingleNaN.Prec_lt_emax 24 128 := eq_refl.
Local Instance dp_pos : Prec_gt_0 53 := eq_refl.
Local Instance dp_lt : BinarySingleNaN.Prec_lt_emax 53 1024 := eq_refl.

(** What holds between two calls only depends on the data of the grid. *)
Section Agree.
  Context {upm : units}.
  Local Notation sim := (sim (ZNum upm)).

  Lemma agree_sym (s s' : sim) : agree s s' -> agree s' s.
  Proof.
    intros (E1 & E2 & E3 & Et & Eb & E4 & E5 & E6 & E7 & E8 & E9).
    assert (O : forall i j, on_grid s' i j -> on_grid s i j)
      by (unfold on_grid; intros i j; rewrite E1, E2; auto).
    repeat split; auto.
    - intros i j Hij. symmetry. auto.
    - symmetry. apply Eb; auto.
    - symmetry. apply Eb; auto.
  Qed.

  Lemma agree_total (s s' : sim) : agree s s' -> total_soil s = total_soil s'.
  Proof.
    intros (E1 & E2 & _ & Et & Eb & _). unfold total_soil. rewrite <- E1, <- E2.
    apply sum2_ext. intros i j Hi Hj. unfold soil_at, soil_height.
    rewrite Et by (split; auto).
    pose proof (proj2 (Eb 0 i j ltac:(lia) (conj Hi Hj))) as B0.
    pose proof (proj2 (Eb 1 i j ltac:(lia) (conj Hi Hj))) as B1.
    pose proof (proj2 (Eb 2 i j ltac:(lia) (conj Hi Hj))) as B2.
    pose proof (proj2 (Eb 3 i j ltac:(lia) (conj Hi Hj))) as B3.
    change (0 + 1) with 1. change (2 + 1) with 3. rewrite B0, B1, B2, B3. reflexivity.
  Qed.

  Lemma agree_balanced (s s' r r' : sim) :
    agree s s' -> agree r r' -> balanced s r -> balanced s' r'.
  Proof.
    intros H1 H2 (new & Hw & Hl & Hi). exists new.
    rewrite <- (agree_total _ _ H1), <- (agree_total _ _ H2).
    destruct H1 as (_ & _ & _ & _ & _ & _ & _ & _ & _ & _ & <-).
    destruct H2 as (_ & _ & _ & _ & _ & _ & _ & _ & _ & _ & <-). auto.
  Qed.

  Lemma agree_state_ok g G legal near (s s' : sim) old :
    agree s s' -> state_ok g G legal near (s, old) -> state_ok g G legal near (s', old).
  Proof.
    intros (E1 & E2 & _ & Et & Eb & E4 & E5 & E6 & _ & _ & _)
      ((Z1 & Z2) & (N1 & N2 & Hc & Hr) & TB & SB & HB & Wb & Wr & Hold).
    assert (O : forall i j, on_grid s' i j -> on_grid s i j)
      by (unfold on_grid; intros i j; rewrite E1, E2; auto).
    assert (Bq : forall k i j, layer k -> on_grid s' i j ->
      ((body s k i j : Z) = body s' k i j /\ (body s (k + 1) i j : Z) = body s' (k + 1) i j) /\
      ((body_soil s k i j : Z) = body_soil s' k i j /\
       (body_soil s (k + 1) i j : Z) = body_soil s' (k + 1) i j)).
    { intros k i j Hk Hij. assert (0 <= k < 4 /\ 0 <= k + 1 < 4) as [K1 K2]
        by (destruct Hk; lia).
      destruct (Eb k i j K1 (O i j Hij)), (Eb (k + 1) i j K2 (O i j Hij)). auto. }
    assert (Ba : forall k i j, layer k -> on_grid s' i j -> body_at s' k i j -> body_at s k i j).
    { intros k i j Hk Hij. destruct (Bq k i j Hk Hij) as ((A1 & A2) & _).
      unfold body_at. rewrite A1, A2. auto. }
    assert (So : forall k i j, layer k -> on_grid s' i j -> soil_on s' k i j -> soil_on s k i j).
    { intros k i j Hk Hij. destruct (Bq k i j Hk Hij) as (_ & (A1 & A2)).
      unfold soil_on. rewrite A1, A2. auto. }
    assert (L2 : forall k, layer k -> layer (2 - k)) by (unfold layer; lia).
    assert (I : forall i j, inside s i j <-> inside s' i j)
      by (intros i j; unfold inside; rewrite E1, E2; tauto).
    split; [split; congruence|]. split; [|split; [|split; [|split; [|split; [|split]]]]].
    - split; [lia|]. split; [lia|]. split.
      + intros i j Hij. destruct (Hc i j (O i j Hij)) as ((C1 & C2) & (C3 & C4) & C5).
        split; [|split].
        * split; [rewrite <- Et by auto; auto|]. intros k Hk.
          destruct (Eb k i j Hk (O i j Hij)) as [<- <-]. auto.
        * split.
          -- intros k Hk Hb. destruct (C3 k Hk (Ba k i j Hk Hij Hb)) as [C6 C7].
             destruct (Bq k i j Hk Hij) as ((A1 & A2) & _).
             split; [apply I; auto|]. rewrite <- A1, <- A2. auto.
          -- intros H0 H2. pose proof (C4 (Ba 0 i j (or_introl eq_refl) Hij H0)
               (Ba 2 i j (or_intror eq_refl) Hij H2)) as C6.
             destruct (Bq 0 i j (or_introl eq_refl) Hij) as ((A1 & A2) & _).
             destruct (Bq 2 i j (or_intror eq_refl) Hij) as ((A3 & A4) & _).
             change (0 + 1) with 1 in A2. change (2 + 1) with 3 in A4.
             rewrite <- A1, <- A2, <- A3, <- A4. auto.
        * intros k Hk. destruct (C5 k Hk) as [C6 C7].
          destruct (Bq k i j Hk Hij) as ((A1 & A2) & (A3 & A4)). split.
          -- intros Hs. destruct (C6 (So k i j Hk Hij Hs)) as (C8 & C9 & C10).
             split; [|split].
             ++ unfold body_at in *. rewrite <- A1, <- A2. auto.
             ++ rewrite <- A3, <- A2. auto.
             ++ rewrite <- E4. auto.
          -- unfold soil_height in *. rewrite <- A3, <- A4, <- E4. auto.
      + rewrite <- E4. eapply Forall_impl; [|exact Hr].
        intros e (R1 & R2 & R3). split; [auto|]. split; [apply I; auto|auto].
    - intros i j k Hij Hk Hb. destruct (Bq k i j Hk Hij) as ((A1 & _) & _).
      rewrite <- Et, <- A1 by auto. apply TB; auto.
    - intros i j k Hij Hk Hs Hb Hl. destruct (Bq k i j Hk Hij) as ((A1 & _) & (_ & A2)).
      destruct (Bq (2 - k) i j (L2 k Hk) Hij) as ((A3 & _) & _).
      rewrite <- A1, <- A3 in Hl. rewrite <- A2, <- A3. apply SB; auto.
    - intros k i j Hij Hk Hb. destruct (Bq k i j Hk Hij) as ((_ & A2) & _).
      rewrite <- E5, <- A2. apply HB; auto.
    - rewrite <- E5. auto.
    - rewrite <- E6. auto.
    - rewrite <- E4. auto.
  Qed.
End Agree.

(** Numbers. *)
Lemma finite32_is a : finite32 a -> is32 a (tv (ticks32 a)).
Proof. intros [V Fi]. apply ticks32_is; auto. destruct a; try tauto; reflexivity. Qed.

Lemma is_finite32 a x : is32 a (tv x) -> finite32 a /\ ticks32 a = x.
Proof.
  intros H. split; [|apply is32_ticks32; auto]. destruct H as (V & Fi & _).
  split; [auto|]. destruct a; try discriminate; auto.
Qed.

Lemma level64_is a x : level64 a x -> is64 a (tv x).
Proof.
  intros [V E]. destruct a as [s|s| |s m e]; try tauto.
  - destruct E as [_ ->]. rewrite tv_0. apply is_zero.
  - split; [auto|]. split; [reflexivity|].
    cbn in V. unfold bounded in V. apply andb_true_iff in V as [V _].
    unfold canonical_mantissa in V. apply Zeq_bool_eq in V. unfold fexp, emin in V.
    cbn [BinarySingleNaN.SF2R]. unfold F2R, Fnum, Fexp, tv.
    apply Rmult_eq_reg_r with (bpow radix2 1074); [|apply Rgt_not_eq, bpow_gt_0].
    rewrite !Rmult_assoc, <- !bpow_plus.
    rewrite <- !(IZR_Zpower radix2) by lia. rewrite <- !mult_IZR. f_equal. exact E.
Qed.

(** Rounding a level gives the positive zero. *)
Lemma level64_pos a : level64 a 0 -> a = S754_zero false.
Proof.
  intros H. pose proof (level64_is _ _ H) as Hi. rewrite tv_0 in Hi.
  apply is_zero_sign in Hi. rewrite Hi in *. destruct H as [_ [-> _]]. reflexivity.
Qed.

Lemma sub_self p e a : match a with S754_finite _ _ _ => True | _ => False end ->
  SFsub p e a a = S754_zero false.
Proof. destruct a; try tauto. intros _. cbn. rewrite Z.sub_diag. reflexivity. Qed.

Section Dyadic.
  Variables (w : Z) (g : grid_t (NumOf FltB)) (P : params (NumOf FltB)).
  Hypothesis HD : dyadic w g P.
  Local Notation tt := (ticks32 (p_tol P)).
  Local Notation cz := (2 ^ w).
  Local Notation H := ((half_z g + 1) * 2 ^ w).
  Local Notation K := ((2 ^ 20 - 1) * 2 ^ w).

  Lemma cell_pos : 0 < cz.
  Proof. destruct HD as (H1 & _). apply Z.pow_pos_nonneg; lia. Qed.

  Lemma tt_pos : 0 < tt.
  Proof.
    destruct HD as (_ & _ & _ & H4 & _ & _ & _ & H8 & _). pose proof cell_pos.
    clear HD. nia.
  Qed.

  Lemma the_v : 0 <= Z.log2 tt <= w /\ 2 ^ Z.log2 tt <= tt /\
    H <= (2 ^ 24 - 1) * 2 ^ Z.log2 tt.
  Proof.
    pose proof tt_pos as Ht. pose proof (Z.log2_spec _ Ht) as [L1 L2].
    pose proof (Z.log2_nonneg tt) as L0.
    destruct HD as (H1 & _ & _ & _ & _ & _ & H7 & H8 & _).
    split; [split; [auto|]|split; [auto|]].
    - rewrite <- (Z.log2_pow2 w) by lia. apply Z.log2_le_mono. lia.
    - rewrite Z.pow_succ_r in L2 by auto.
      set (q := 2 ^ Z.log2 tt) in *. clearbody q. clear - L2 H8 Ht L1.
      etransitivity; [exact H8|]. lia.
  Qed.

  Lemma cell_is : is32 (cell_z g) (tv cz).
  Proof. destruct HD as (_ & H2 & H3 & _). rewrite <- H3. apply finite32_is; auto. Qed.

  Definition LD : locked (NumOf FltB).
  Proof.
    refine (LockB w (Z.log2 tt) tt H (p_tol P) _ _ _ _ _ _ cz K eq_refl eq_refl _).
    - apply HD.
    - apply the_v.
    - apply finite32_is. apply HD.
    - apply the_v.
    - apply HD.
    - split; [|apply the_v]. destruct HD as (_ & _ & _ & H4 & _). pose proof cell_pos.
      clear HD. nia.
    - destruct HD as (_ & _ & _ & H4 & _). pose proof cell_pos. clear HD. nia.
  Defined.

  Lemma phi_is x : (cz | x) -> Z.abs x <= 8 * K -> is32 (height32 x) (tv x).
  Proof.
    intros H1 H2. pose proof the_v as (V1 & V2 & _).
    apply (is_phi w (Z.log2 tt) tt (proj1 HD) V1 V2 (proj1 (proj2 (proj2 (proj2 (proj2 (proj2 (proj2 HD))))))) cz K); auto.
  Qed.

  Lemma cell_height : cell_z g = l_cA LD.
  Proof.
    change (l_cA LD) with (height32 cz). pose proof cell_pos.
    apply (is_inj 24 128 _ _ (tv cz)).
    - apply cell_is.
    - apply phi_is; [exists 1; lia|lia].
    - rewrite tv_pow by (destruct HD; lia). apply Rgt_not_eq, bpow_gt_0.
  Qed.

  (** A level, rounded to binary32. *)
  Lemma level_WB a x : level64 a x -> (cz | x) -> Z.abs x <= H -> WB LD (b_conv 24 128 a) x.
  Proof.
    intros Ha Hx Hb. pose proof cell_pos as Hc.
    assert (HK : Z.abs x <= 8 * K).
    { destruct HD as (_ & _ & _ & H4 & _). clear - Hb H4 Hc. nia. }
    pose proof (phi_is x Hx HK) as Hp.
    assert (Hi : is32 (b_conv 24 128 a) (tv x)).
    { rewrite <- (rnd_id 24 128 (tv x)) by (eapply is_format; eauto).
      destruct (level64_is _ _ Ha) as (_ & Fi & Ev).
      apply conv_is; auto with typeclass_instances. apply small32. apply tv_bound.
      assert (cz <= 2 ^ 250) by (apply Z.pow_le_mono_r; destruct HD; lia). lia. }
    split; [split; auto|]. split; [|exact Hb].
    change (l_phi LD x) with (height32 x).
    destruct (Z.eq_dec x 0) as [->|Nz].
    - rewrite (level64_pos _ Ha). reflexivity.
    - apply (is_inj 24 128 _ _ (tv x)); auto.
      intros E. rewrite <- tv_0 in E. apply tv_inj in E. auto.
  Qed.

  Lemma bottom_level a x : level64 a x -> (cz | x) -> Z.abs x <= K ->
    level64 (SFsub 53 1024 a (b_conv 53 1024 (cell_z g))) (x - cz).
  Proof.
    intros Ha Hx Hb. pose proof cell_pos as Hc.
    assert (Hw : 2 <= w <= 250) by apply HD.
    assert (Hcd : is64 (b_conv 53 1024 (cell_z g)) (tv cz)).
    { assert (Fm : fmt64 (tv cz)) by (rewrite <- (Z.mul_1_l cz); apply fmt64_tv; lia).
      rewrite <- (rnd_id 53 1024 (tv cz)) by auto.
      destruct cell_is as (_ & Fi & Ev). apply conv_is; auto with typeclass_instances. apply small64.
      apply bpow_127_1023. apply tv_bound. rewrite Z.abs_eq by lia.
      apply Z.pow_le_mono_r; lia. }
    assert (Hx' : exists n, x - cz = n * cz /\ Z.abs n <= 2 ^ 53).
    { destruct Hx as [n ->]. exists (n - 1). split; [lia|].
      apply (count w 0 n cz (2 ^ 20 - 1)) in Hb; auto. lia. }
    destruct Hx' as (n & En & Hn).
    assert (Fm : fmt64 (tv (x - cz))) by (rewrite En; apply fmt64_tv; [lia|auto]).
    pose proof (level64_is _ _ Ha) as Hai.
    assert (Bx : Z.abs (x - cz) <= 2 ^ 276).
    { assert (cz <= 2 ^ 250) by (apply Z.pow_le_mono_r; lia). lia. }
    assert (Hs : is64 (SFsub 53 1024 a (b_conv 53 1024 (cell_z g))) (tv (x - cz))).
    { rewrite <- (rnd_id 53 1024 (tv (x - cz))) by auto. rewrite tv_sub.
      apply is_sub; auto with typeclass_instances. rewrite <- tv_sub. apply small64. apply bpow_127_1023.
      apply tv_bound; auto. }
    destruct (Z.eq_dec x cz) as [->|Nz].
    - assert (E : a = b_conv 53 1024 (cell_z g)).
      { apply (is_inj 53 1024 _ _ (tv cz)); auto.
        rewrite tv_pow by lia. apply Rgt_not_eq, bpow_gt_0. }
      rewrite <- E in *. rewrite sub_self, Z.sub_diag; [split; [reflexivity|auto]|].
      destruct Ha as [_ Ha]. destruct a; try tauto. lia.
    - set (r := SFsub 53 1024 a (b_conv 53 1024 (cell_z g))) in *. clearbody r.
      destruct Hs as (V & Fi & Ev). split; [auto|].
      destruct r as [s|s| |s m e]; try discriminate.
      + cbn in Ev. symmetry in Ev. rewrite <- tv_0 in Ev. apply tv_inj in Ev. lia.
      + cbn in V. unfold bounded in V. apply andb_true_iff in V as [V _].
        unfold canonical_mantissa in V. apply Zeq_bool_eq in V. unfold fexp, emin in V.
        cbn [BinarySingleNaN.SF2R] in Ev. unfold F2R, Fnum, Fexp, tv in Ev.
        apply eq_IZR. rewrite !mult_IZR.
        rewrite !(IZR_Zpower radix2) by lia.
        replace (bpow radix2 (e + 1074)) with (bpow radix2 e * bpow radix2 1074)%R
          by (rewrite <- bpow_plus; reflexivity).
        rewrite <- Rmult_assoc, Ev, Rmult_assoc, <- bpow_plus. reflexivity.
  Qed.

  Lemma grid_rel : relg LD g (read_grid g).
  Proof.
    pose proof cell_pos as Hc.
    destruct HD as (Hw & _ & Ec & Hz & Hl & _).
    constructor.
    - reflexivity.
    - reflexivity.
    - reflexivity.
    - apply cell_height.
    - exact Ec.
    - intros k Hk. cbn in Hk. unfold read_grid. cbn [vect_z half_z]. rewrite Ec.
      refine (level_WB (vect_z g k) (cz * (k + 1 - half_z g)) _ _ _);
        [apply Hl; auto|apply Z.divide_factor_l|].
      rewrite Z.abs_mul, (Z.abs_eq cz) by lia. clear - Hk Hz Hc. nia.
    - intros k Hk. cbn in Hk. unfold read_grid. cbn [vect_z half_z cell_z]. rewrite Ec.
      assert (B : Z.abs (k + 1 - half_z g) <= half_z g + 1) by lia.
      assert (B' : Z.abs (k - half_z g) <= half_z g + 1) by lia.
      refine (level_WB (SFsub 53 1024 (vect_z g k) (b_conv 53 1024 (cell_z g)))
        (cz * (k + 1 - half_z g) - cz) _ _ _).
      + apply bottom_level; [apply Hl; auto|apply Z.divide_factor_l|].
        rewrite Z.abs_mul, (Z.abs_eq cz) by lia. clear - B Hz Hc. nia.
      + apply Z.divide_sub_r; [apply Z.divide_factor_l|apply Z.divide_refl].
      + replace (cz * (k + 1 - half_z g) - cz) with (cz * (k - half_z g)) by lia.
        rewrite Z.abs_mul, (Z.abs_eq cz) by lia. clear - B' Hc. nia.
    - change (is32 (of_scaled 24 128 false (2 * half_z g) 0) (tv (2 * half_z g * 2 ^ 149))).
      rewrite tv_mul, tv_pow by lia. change (bpow radix2 (149 - 149)) with 1%R.
      rewrite Rmult_1_r. apply is_of_Z; first [lia | reflexivity | (vm_compute; discriminate)].
  Qed.

  Lemma params_read : read_params g P = exact_params LD P (ticks32 (p_dh_max P)).
  Proof.
    unfold read_params, exact_params. f_equal.
    change (l_tz LD) with (ticks32 (SFadd 24 128 (l_cA LD) (p_tol P)) - cz).
    rewrite <- cell_height. destruct HD as (_ & _ & -> & _). reflexivity.
  Qed.

  Lemma grid_read_ok : 1 <= half_x g -> 1 <= half_y g -> grid_ok (read_grid g).
  Proof.
    intros Hx Hy. split; [auto|]. split; [auto|]. split.
    - cbn. destruct HD as (_ & _ & -> & _). apply cell_pos.
    - intros k Hk. reflexivity.
  Qed.

  Lemma params_read_ok : size_ok g P -> params_ok (read_grid g) (read_params g P).
  Proof.
    intros (S1 & S2 & S3 & S4 & S5). rewrite params_read.
    unfold params_ok. cbn [p_tol p_dh_max p_cell_buffer exact_params read_grid cell_z half_x half_y].
    pose proof (l_tz_pos _ LD) as T1. pose proof (l_half _ LD) as T2.
    destruct HD as (_ & _ & Ec & _ & _ & _ & _ & _ & Hd & Hd').
    split; [exact T1|]. split; [rewrite Ec; exact T2|]. split; [apply Hd'|].
    split; [rewrite Ec; apply Hd|]. auto.
  Qed.

  Section Run.
    Variables (d t : Z) (G : geom (NumOf FltB)) (legal : pose G -> Prop).
    Variable near : vec spec_float -> Prop.
    Hypothesis HS : size_ok g P.
    Hypothesis HP : poses_ok g G legal near.
    Hypothesis HW : walls_fit w d g G legal near.

    Lemma geom_read_ok : geom_ok (read_grid g) (exact_geom LD G) legal near.
    Proof.
      destruct HP as [P1 P2]. split.
      - intros p Hp. destruct (P1 p Hp) as (a & walls & Er & Ob & Ne & Hc).
        exists a, walls. split; [exact Er|]. split; [split; [exact Ob|split; [exact Ne|]]|].
        + intros l i j k Hl Hi. destruct (Hc l i j k Hl Hi) as (C1 & C2 & _). auto.
        + intros l i j k Hl Hi. destruct (Hc l i j k Hl Hi) as (_ & C2 & C3).
          destruct (rg_top _ _ _ grid_rel k C2) as (_ & E & _).
          rewrite E in C3. exact C3.
      - intros p p' x Hp Hp' Hx. destruct (P2 p p' x Hp Hp' Hx) as (r & Er & R1 & R2).
        exists (remapped LD r). split; [|auto].
        change (remap LD (g_reloc G p p') x = Ok (remapped LD r)).
        unfold remap. rewrite Er. reflexivity.
    Qed.

    Local Notation limD := (lim (upm := exact LD) H d t K).

    Lemma inb_on (s : sim (NumOf FltB)) i j :
      inb s i j = true <-> on_grid (upm := units32) (read s) i j.
    Proof.
      unfold inb, on_grid. rewrite !andb_true_iff, !Z.leb_le, !Z.ltb_lt. cbn. tauto.
    Qed.

    Lemma lim_read s : heights_ok w g s -> fits w d t g s -> limD (read s) 0.
    Proof.
      intros (_ & H2 & _) (F1 & F2 & F3 & F4 & F5 & F6).
      pose proof cell_pos as Hc.
      assert (Hz : 0 <= half_z g) by (destruct HD as (_ & _ & _ & Hz & _); lia).
      split; [|split; [|split]].
      - intros k i j Hk Hij. apply inb_on in Hij. split; [|apply F4; auto].
        apply (H2 k i j Hk Hij).
      - intros i j Hij. apply F3. apply inb_on. auto.
      - unfold room. cbn [nx ny read]. split; [split; [|auto]|split; [auto|]].
        + clear - Hc Hz. nia.
        + assert (0 <= H) by (clear - Hc Hz; nia).
          set (q := nx s * ny s * d) in *. clearbody q. lia.
      - change (total_soil (read s) + 0 <= t). lia.
    Qed.

    Lemma whole_W a : whole w a -> Z.abs (ticks32 a) <= K -> W LD 1 a (ticks32 a).
    Proof.
      intros [Wf Wd] Hk. split; [split; [apply finite32_is; auto|exact Wd]|].
      change (Z.abs (ticks32 a) <= 1 * K). lia.
    Qed.

    Lemma rel_read s old : heights_ok w g s -> fits w d t g s ->
      state_ok (read_grid g) (exact_geom LD G) legal near (read s, old) ->
      rel LD 1 s (read s).
    Proof.
      intros Hh Hf Hs. pose proof (lim_read s Hh Hf) as Hl.
      destruct Hs as (_ & HC & _).
      destruct (lim_bounds (upm := exact LD) H d t K near _ (read s) _ 0 HC Hl ltac:(lia))
        as (B1 & B2 & B3 & _).
      destruct Hh as (H1 & H2 & H3).
      constructor; try reflexivity.
      - intros i j Hij. apply whole_W; [apply H1, inb_on; auto|apply (B1 i j Hij)].
      - intros k i j Hk Hij. pose proof (proj2 (inb_on s i j) Hij) as Hi.
        destruct (H2 k i j Hk Hi) as ([X1 X2] & X3 & X4 & _).
        split; [split; [apply finite32_is; auto|exact X2]|]. split; [|exact X4].
        change (l_phi LD (body (read s) k i j)) with (height32 (ticks32 (body s k i j))).
        pose proof (finite32_is _ X1) as Hx. pose proof cell_pos as Hc.
        destruct (Z.eq_dec (ticks32 (body s k i j)) 0) as [E|Nz].
        + rewrite E in Hx |- *. rewrite tv_0 in Hx. apply is_zero_sign in Hx.
          rewrite Hx in X3 |- *. destruct (b_neg (body s k i j)); [tauto|reflexivity].
        + apply (is_inj 24 128 _ _ (tv (ticks32 (body s k i j)))); auto.
          * apply phi_is; auto. destruct HD as (_ & _ & _ & Hz & _). clear - X4 Hz Hc. nia.
          * intros E. rewrite <- tv_0 in E. apply tv_inj in E. auto.
      - intros k i j Hk Hij. apply whole_W; [apply H2; [auto|apply inb_on; auto]|].
        apply (B2 k i j Hk Hij).
      - clear - H3 B3. cbn [read records] in *. induction H3 as [|e l He _ IH]; constructor.
        + cbn [map] in B3. inversion B3; subst.
          split; [reflexivity|]. split; [reflexivity|]. split; [reflexivity|].
          split; [reflexivity|]. apply whole_W; auto.
        + cbn [map] in B3. inversion B3; subst. auto.
    Qed.

    (** Conversely. *)
    Lemma W_whole n a x : W LD n a x -> whole w a /\ ticks32 a = x.
    Proof.
      intros [[Hi Hd] _]. destruct (is_finite32 _ _ Hi) as [Hf E].
      split; [split; [auto|]|auto]. rewrite E. exact Hd.
    Qed.

    Lemma rel_agree s s' : rel LD 1 s s' -> agree (upm := units32) (read s) s'.
    Proof.
      intros R.
      assert (O : forall i j, on_grid (upm := units32) (read s) i j ->
                              on_grid (upm := exact LD) s' i j).
      { intros i j. unfold on_grid. cbn. rewrite (rel_nx _ _ _ _ R), (rel_ny _ _ _ _ R). auto. }
      split; [exact (rel_nx _ _ _ _ R)|]. split; [exact (rel_ny _ _ _ _ R)|].
      split; [exact (rel_equilibrium _ _ _ _ R)|].
      split; [|split; [|split; [|split; [exact (rel_body_area _ _ _ _ R)|
        split; [exact (rel_relax_area _ _ _ _ R)|split; [exact (rel_impact_area _ _ _ _ R)|
        split; [exact (rel_rng _ _ _ _ R)|exact (rel_wlog _ _ _ _ R)]]]]]]].
      - intros i j Hij. exact (proj2 (W_whole _ _ _ (rel_t _ _ _ _ R i j (O i j Hij)))).
      - intros k i j Hk Hij. split.
        + exact (proj2 (W_whole _ _ _ (WB_W LD _ _ (rel_b _ _ _ _ R k i j Hk (O i j Hij))))).
        + exact (proj2 (W_whole _ _ _ (rel_bs _ _ _ _ R k i j Hk (O i j Hij)))).
      - pose proof (rel_records _ _ _ _ R) as Rr. clear - Rr.
        change (map read_rec (records s) = records s').
        induction Rr as [|e e' la ls (E1 & E2 & E3 & E4 & E5) _ IH]; [reflexivity|].
        cbn [map]. f_equal; [|exact IH].
        destruct e as [x1 x2 x3 x4 x5], e' as [y1 y2 y3 y4 y5]. cbn in *.
        destruct (W_whole _ _ _ E5) as [_ E6].
        unfold read_rec. cbn. subst. reflexivity.
    Qed.

    Lemma rel_heights s s' : rel LD 1 s s' -> heights_ok w g s.
    Proof.
      intros R.
      assert (O : forall i j, inb s i j = true -> on_grid (upm := exact LD) s' i j).
      { intros i j Hij. apply inb_on in Hij. unfold on_grid in *. cbn in Hij.
        rewrite <- (rel_nx _ _ _ _ R), <- (rel_ny _ _ _ _ R). auto. }
      split; [|split].
      - intros i j Hij. apply (W_whole _ _ _ (rel_t _ _ _ _ R i j (O i j Hij))).
      - intros k i j Hk Hij.
        pose proof (rel_b _ _ _ _ R k i j Hk (O i j Hij)) as B.
        pose proof (rel_bs _ _ _ _ R k i j Hk (O i j Hij)) as S.
        destruct (W_whole _ _ _ (WB_W LD _ _ B)) as [W1 W2].
        destruct (W_whole _ _ _ S) as [W3 W4].
        split; [auto|]. split; [|split; [|auto]].
        + intros E. destruct B as (_ & Bp & _). rewrite E in W2. cbn in W2.
          rewrite <- W2 in Bp. rewrite E in Bp. discriminate Bp.
        + rewrite W2. apply B.
      - pose proof (rel_records _ _ _ _ R) as Rr. clear - Rr.
        induction Rr as [|e e' la ls (E1 & E2 & E3 & E4 & E5) _ IH]; constructor; auto.
        apply (W_whole _ _ _ E5).
    Qed.

    Lemma rel_fits s s' : rel LD 1 s s' -> limD s' 0 -> roomy LD d t s' -> fits w d t g s.
    Proof.
      intros R (L1 & L2 & (L3 & L4 & _) & L5) Hr.
      pose proof (rel_agree _ _ R) as Ag.
      assert (O : forall i j, inb s i j = true -> on_grid (upm := exact LD) s' i j).
      { intros i j Hij. apply inb_on in Hij. unfold on_grid in *. cbn in Hij.
        rewrite <- (rel_nx _ _ _ _ R), <- (rel_ny _ _ _ _ R). auto. }
      split; [apply L3|]. split; [auto|]. split; [|split; [|split]].
      - intros i j Hij. destruct Ag as (_ & _ & _ & At & _).
        pose proof (At i j (proj1 (inb_on s i j) Hij)) as E. cbn in E. rewrite E.
        apply (L2 i j (O i j Hij)).
      - intros k i j Hk Hij. destruct Ag as (_ & _ & _ & _ & Ab & _).
        destruct (Ab k i j Hk (proj1 (inb_on s i j) Hij)) as [E _]. cbn in E. rewrite E.
        apply (L1 k i j Hk (O i j Hij)).
      - rewrite (agree_total _ _ Ag).
        change (total_soil (upm := units32) s') with (total_soil (upm := exact LD) s'). lia.
      - unfold roomy in Hr. rewrite (rel_nx _ _ _ _ R), (rel_ny _ _ _ _ R). exact Hr.
    Qed.

    Theorem run32 ps s old :
      heights_ok w g s -> fits w d t g s ->
      state_ok (read_grid g) (read_geom G) legal near (read s, old) -> Forall legal ps ->
      exists s1 s1' old1,
        (exists fuel0, forall fuel, (fuel0 <= fuel)%nat ->
           run G g P fuel ps (s, old) = Ok (s1, old1) /\
           run (read_geom G) (read_grid g) (read_params g P) fuel ps (read s, old) =
             Ok (s1', old1)) /\
        agree (read s1) s1' /\ heights_ok w g s1 /\ fits w d t g s1 /\
        state_ok (read_grid g) (read_geom G) legal near (read s1, old1) /\
        balanced (read s) (read s1).
    Proof.
      intros Hh Hf Hs Hps.
      pose proof HS as (S1 & S2 & _). pose proof HW as [HW1 HW2].
      destruct (run_both LD d t G g (read_grid g) P (ticks32 (p_dh_max P)) legal near
        grid_rel eq_refl) with (ps := ps) (w := (s, old)) (w' := (read s, old))
        as ([s1 o1] & [s1' o1'] & (f & Hfu) & (Eo & R & Hl & Hr & Hst) & Hb).
      - destruct HD as (_ & _ & _ & _ & _ & _ & _ & _ & Hd & Hd').
        apply whole_W; auto. lia.
      - apply grid_read_ok; auto.
      - rewrite <- params_read. apply params_read_ok; auto.
      - apply geom_read_ok.
      - intros o p x r Ho Hp Hx Er. exact (HW2 o p x r Ho Hp Hx Er).
      - intros p ar walls l i j k Hp Er Hl Hi.
        cbn [read_grid cell_z half_z]. destruct HD as (_ & _ & -> & _).
        exact (HW1 p ar walls l i j k Hp Er Hl Hi).
      - split; [reflexivity|]. split; [eapply rel_read; eauto|].
        split; [apply lim_read; auto|]. split; [|exact Hs]. apply Hf.
      - exact Hps.
      - cbn [fst snd] in *. subst o1'. exists s1, s1', o1.
        pose proof (rel_agree _ _ R) as Ag.
        split; [exists f; intros fuel Hle; rewrite params_read; exact (Hfu fuel Hle)|].
        split; [exact Ag|]. split; [eapply rel_heights; eauto|].
        split; [eapply rel_fits; eauto|]. split.
        + apply (agree_state_ok _ _ _ _ s1'); [apply agree_sym; exact Ag|exact Hst].
        + apply (agree_balanced (read s) (read s) s1' (read s1));
            [repeat split|apply agree_sym; exact Ag|exact Hb].
    Qed.
  End Run.
End Dyadic.
