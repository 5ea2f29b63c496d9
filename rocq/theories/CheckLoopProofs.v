(** The Check calls of the main loop of the example program. *)
From Coq Require Import ZArith List Bool Lia.
From Verif Require Import Outcome Num State Base Spec Spec2 InvBase RelaxBase ModelUtils ModelStep
  ModelCheckLoop StepProofs StepFuel RunProofs CheckProofs InitProofs LockBound FloorProofs.
Import ListNotations.
Open Scope Z_scope.

Definition warning_dec : forall x y : warning, {x = y} + {x <> y}.
Proof. decide equality. Defined.

Lemma sum2_mono n m f h :
  (forall i j, 0 <= i < n -> 0 <= j < m -> f i j <= h i j) -> sum2 n m f <= sum2 n m h.
Proof.
  intros H. assert (E : 0 <= sum2 n m (fun i j => h i j - f i j))
    by (apply sum2_nonneg; intros i j Hi Hj; specialize (H i j Hi Hj); lia).
  assert (Q : sum2 n m h = sum2 n m f + sum2 n m (fun i j => h i j - f i j)).
  { rewrite <- sum2_add. apply sum2_ext. intros; lia. }
  lia.
Qed.

(** Check on any state. *)
Section AnyState.
  Context {upm : units}.
  Variable g : grid_t (ZNum upm).
  Variable P : params (ZNum upm).
  Hypothesis Hz : 0 < (cell_z g : Z).
  Local Notation cz := (cell_z g : Z).

  Lemma check_volume_vol (tol v : Z) (s s' : sim (ZNum upm)) :
    records_in s -> agree tol s ->
    check_volume (A := ZNum upm) tol cz v s = Ok (s', false) -> s' = warn s WVolume.
  Proof.
    unfold check_volume. intros Hr Ha E. apply bind_ok in E as (f & Ef & E).
    pose proof (subtract_records_ok s Hr) as Hf. rewrite Ef in Hf. cbn [returns] in Hf.
    rewrite (proj2 (mismatch_spec tol s f Hf) Ha) in E.
    apply bind_ok in E as (tv & _ & E). apply bind_ok in E as (bv & _ & E).
    apply bind_ok in E as (t & _ & E). destruct (negb _); inversion E; reflexivity.
  Qed.

  Lemma check_any (v : Z) (s s' : sim (ZNum upm)) a b :
    records_in s -> (forall i j, in_area (body_area s) i j -> on_grid s i j) ->
    check g P v s = Ok (s', (a, b)) ->
    (a = true <-> agree (p_tol P) s /\ volume cz s = v) /\
    (b = true <-> forall i j, in_area (body_area s) i j -> conventions (p_tol P) s i j) /\
    exists new, s' = fold_left warn new s /\
      length new = ((if a then 0 else 1) + (if b then 0 else 1))%nat.
  Proof.
    intros Hr Ha E. unfold check in E. apply bind_ok in E as ([s1 a1] & E1 & E).
    apply bind_ok in E as ([s2 b1] & E2 & E). inversion E; subst s2 a1 b1. clear E.
    destruct (check_volume_inv cz Hz (p_tol P) v s s1 a Hr E1) as (V1 & V2 & V3).
    split; [exact V1|].
    assert (X : exists n1, s1 = fold_left warn n1 s /\ length n1 = (if a then 0 else 1)%nat).
    { destruct a; [exists []; split; [apply V2; reflexivity|reflexivity]|].
      destruct (V3 eq_refl) as (x & ->). exists [x]. split; reflexivity. }
    destruct X as (n1 & -> & L1).
    assert (Same : body_area (fold_left warn n1 s) = body_area s /\
      (forall i j, on_grid (fold_left warn n1 s) i j <-> on_grid s i j) /\
      (forall i j, conventions (p_tol P) (fold_left warn n1 s) i j <-> conventions (p_tol P) s i j)).
    { destruct n1 as [|x [|? ?]]; [|destruct a; discriminate L1 || idtac|destruct a; discriminate L1];
        cbn [fold_left]; (split; [reflexivity|split; intros i j; reflexivity]). }
    destruct Same as (Sa & Sg & Sc).
    destruct (check_soil_result (p_tol P) (fold_left warn n1 s)) as [[Q R]|[(i & j & Qi & Qn) R]].
    - intros i j Hi. rewrite Sa in Hi. apply Sg, Ha, Hi.
    - rewrite R in E2. inversion E2; subst. split.
      + split; [intros _ i j Hi; apply Sc, Q; rewrite Sa; exact Hi|reflexivity].
      + exists n1. split; [reflexivity|]. rewrite L1. lia.
    - rewrite R in E2. inversion E2; subst. split.
      + split; [discriminate|]. intros H. exfalso. apply Qn, Sc, H. rewrite <- Sa. exact Qi.
      + exists (n1 ++ [WSoil]). split; [rewrite fold_left_app; reflexivity|].
        rewrite app_length, L1. reflexivity.
  Qed.
End AnyState.

Section CheckLoopProofs.
  Context {upm : units}.
  Variable g : grid_t (ZNum upm).
  Variable G : geom (ZNum upm).
  Variable legal : pose G -> Prop.
  Variable near : Pos (ZNum upm) -> Prop.
  Variable P : params (ZNum upm).
  Hypothesis Hg : grid_ok g.
  Hypothesis HP : params_ok g P.
  Hypothesis HG : geom_ok g G legal near.
  Hypothesis Hhz : 0 <= half_z g.
  Variable Lb : Z.
  Hypothesis Hlow : (cell_z g : Z) * half_z g <= Lb.
  Local Notation cz := (cell_z g : Z).
  Local Notation ok := (state_ok g G legal near).

  Lemma abs_volume_bound (s : sim (ZNum upm)) l :
    consistent near cz s l -> floored Lb s ->
    cz * abs_volume cz s <= total_soil s + 2 * (nx s * ny s * Lb).
  Proof.
    intros C Hf. destruct Hg as (_ & _ & Hz & _).
    assert (L0 : 0 <= Lb) by nia.
    pose proof C as (N1 & N2 & C3 & Hr).
    rewrite <- sum2_const by lia. rewrite <- (sum2_scale _ _ 2).
    unfold abs_volume, total_soil. rewrite <- !sum2_add, <- sum2_scale.
    apply sum2_mono. intros i j Hi Hj.
    destruct (C3 i j (conj Hi Hj)) as ((A1 & A2) & _ & S3).
    assert (As : forall k, layer k -> cz * Z.abs (cells_in cz (soil_height s k i j)) = soil_height s k i j).
    { intros k Hk. assert (N : 0 <= soil_height s k i j).
      { destruct (S3 k Hk) as [_ ->]. apply recorded_nonneg. eapply rec_ok_nonneg. exact Hr. }
      rewrite Z.abs_eq by (apply round_nonneg; assumption). apply cells_in_aligned; [exact Hz|].
      unfold soil_height. apply aligned_sub; apply A2; unfold layer in Hk; lia. }
    pose proof (As 0 (or_introl eq_refl)). pose proof (As 2 (or_intror eq_refl)).
    pose proof (cells_in_aligned cz Hz _ A1). pose proof (Hf i j (conj Hi Hj)).
    unfold soil_at. zn. nia.
  Qed.

  Lemma warn_ok (s : sim (ZNum upm)) old x : ok (s, old) -> ok (warn s x, old).
  Proof. exact (fun H => H). Qed.

  (** One Check, when [v] cells are expected. *)
  Lemma check_one (v : Z) (w : world G) :
    ok w -> floored Lb (fst w) ->
    total_soil (fst w) + 2 * (nx (fst w) * ny (fst w) * Lb) <= cz * 2147483647 ->
    (total_soil (fst w) = cz * v /\ check g P v (fst w) = Ok (fst w, (true, true))) \/
    (total_soil (fst w) <> cz * v /\ check g P v (fst w) = Ok (warn (fst w) WVolume, (false, true))).
  Proof.
    intros Hw Hf Hb. destruct w as [s old]. cbn [fst] in *.
    pose proof Hg as (_ & _ & Hz & _). pose proof HP as (Ht & _).
    pose proof Hw as (_ & C & _).
    pose proof (abs_volume_bound s _ C Hf) as B.
    assert (Fit : abs_volume cz s <= 2147483647) by nia.
    pose proof (volume_total cz Hz near s _ C) as V.
    pose proof (consistent_agree cz near s (p_tol P) ltac:(lia) C) as Ag.
    unfold check.
    destruct (check_volume_result cz Hz (p_tol P) v s (consistent_records_in cz near s C) Fit)
      as [(_ & Ev & E)|(N & x & E)]; rewrite E; cbn [bind].
    - left. split; [rewrite <- V, Ev; reflexivity|].
      pose proof (state_ok_check_soil g G legal near P Hg HP (s, old) Hw) as Es.
      cbn [fst] in Es. rewrite Es. reflexivity.
    - right. split; [intros Q; apply N; split; [exact Ag|nia]|].
      pose proof (check_volume_vol g (p_tol P) v s _ (consistent_records_in cz near s C) Ag E) as Ex.
      rewrite Ex. clear x E Ex.
      pose proof (state_ok_check_soil g G legal near P Hg HP (warn s WVolume, old)
        (warn_ok s old WVolume Hw)) as Es.
      cbn [fst] in Es. rewrite Es. reflexivity.
  Qed.

  Lemma balanced_new (s s' : sim (ZNum upm)) : balanced s s' -> exists new, wlog s' = wlog s ++ new.
  Proof. intros (new & E & _). exists new. exact E. Qed.

  (** The answers of CheckVolume are true up to the first loss of soil, and false from then on;
      those of CheckSoil are all true. *)
  Theorem checked_run_total (v : Z) ps : forall (w : world G),
    ok w -> Forall legal ps -> floored Lb (fst w) ->
    total_soil (fst w) + 2 * (nx (fst w) * ny (fst w) * Lb) <= cz * 2147483647 ->
    total_soil (fst w) <= cz * v ->
    exists w' m k N,
      (forall fuel, (N <= fuel)%nat ->
         checked_run G g P fuel v ps w = Ok (w', repeat (true, true) m ++ repeat (false, true) k)) /\
      (m + k)%nat = length ps /\ ok w' /\ balanced (fst w) (fst w') /\
      (total_soil (fst w) < cz * v -> m = 0%nat) /\
      (total_soil (fst w) = cz * v -> (k = 0%nat <-> total_soil (fst w') = cz * v)) /\
      (k = 0%nat -> forall fuel, (N <= fuel)%nat -> run G g P fuel ps w = Ok w') /\
      exists new, wlog (fst w') = wlog (fst w) ++ new /\ (k <= count_occ warning_dec new WVolume)%nat.
  Proof.
    induction ps as [|p ps IH]; intros w Hw Hps Hf Hb Hv.
    - exists w, 0%nat, 0%nat, 0%nat. split; [reflexivity|]. split; [reflexivity|]. split; [exact Hw|].
      split; [apply balanced_refl|]. split; [reflexivity|]. split; [tauto|].
      split; [reflexivity|]. exists []. rewrite app_nil_r. split; [reflexivity|cbn; lia].
    - pose proof (Forall_inv Hps) as Hp. pose proof (Forall_inv_tail Hps) as Hps'.
      destruct (step_total g G legal near P Hg HP HG p w Hw Hp) as (w1 & b & (N1 & E1) & Hw1 & B1).
      pose proof (step_floored g G legal near P Hg HP HG Lb Hhz Hlow N1 p w w1 b Hw Hp Hf
        (E1 N1 (Nat.le_refl _))) as Hf1.
      assert (Hn : nx (fst w1) = nx (fst w) /\ ny (fst w1) = ny (fst w)).
      { destruct w as [s old], w1 as [s1 old1]. destruct Hw as ((D1 & D2) & _).
        destruct Hw1 as ((D3 & D4) & _). cbn [fst]. split; congruence. }
      destruct Hn as [Hn1 Hn2].
      assert (T1 : total_soil (fst w1) <= total_soil (fst w)) by (destruct B1 as (? & _ & Q & _); exact Q).
      assert (Hb1 : total_soil (fst w1) + 2 * (nx (fst w1) * ny (fst w1) * Lb) <= cz * 2147483647)
        by (rewrite Hn1, Hn2; lia).
      destruct (check_one v w1 Hw1 Hf1 Hb1) as [(Q & Ec)|(Q & Ec)].
      + destruct (IH w1 Hw1 Hps' Hf1 Hb1 ltac:(lia)) as (w2 & m & k & N2 & R1 & R2 & R3 & R4 & _ & R6 & R7 & new2 & L2 & C2).
        destruct (balanced_new _ _ B1) as (new1 & L1).
        assert (Ew : (fst w1, snd w1) = w1) by (destruct w1; reflexivity).
        exists w2, (S m), k, (Nat.max N1 N2). split; [|split; [|split; [|split; [|split; [|split; [|split]]]]]].
        * intros fuel Hfu. cbn [checked_run]. rewrite E1 by lia. cbn [bind]. rewrite Ec. cbn [bind].
          rewrite Ew, R1 by lia. reflexivity.
        * cbn [length]. lia.
        * exact R3.
        * eapply balanced_trans; eauto.
        * lia.
        * intros _. exact (R6 Q).
        * intros Hk fuel Hfu. cbn [run]. rewrite E1 by lia. cbn [bind]. apply R7; [exact Hk|lia].
        * exists (new1 ++ new2). rewrite L2, L1, app_assoc. split; [reflexivity|].
          rewrite count_occ_app. lia.
      + set (w1' := (warn (fst w1) WVolume, snd w1) : world G).
        assert (Hw1' : ok w1') by (destruct w1; exact (warn_ok _ _ WVolume Hw1)).
        assert (B1' : balanced (fst w1) (fst w1')).
        { apply (balanced_log _ _ [WVolume]); [reflexivity|intros [Z|[]]; discriminate|reflexivity]. }
        destruct (IH w1' Hw1' Hps' Hf1 Hb1) as (w2 & m & k & N2 & R1 & R2 & R3 & R4 & R5 & _ & _ & new2 & L2 & C2).
        { change (total_soil (fst w1')) with (total_soil (fst w1)). lia. }
        change (total_soil (fst w1')) with (total_soil (fst w1)) in R5.
        specialize (R5 ltac:(lia)). subst m.
        exists w2, 0%nat, (S k), (Nat.max N1 N2). split; [|split; [|split; [|split; [|split; [|split; [|split]]]]]].
        * intros fuel Hfu. cbn [checked_run]. rewrite E1 by lia. cbn [bind]. rewrite Ec. cbn [bind].
          fold w1'. rewrite R1 by lia. reflexivity.
        * cbn [length]. lia.
        * exact R3.
        * eapply balanced_trans; [exact B1|]. eapply balanced_trans; eauto.
        * reflexivity.
        * intros _. split; [discriminate|]. intros Z.
          destruct R4 as (? & _ & R4 & _).
          change (total_soil (fst w1')) with (total_soil (fst w1)) in R4. lia.
        * discriminate.
        * destruct (balanced_new _ _ B1) as (new1 & L1). cbn [fst w1'] in L2.
          exists (new1 ++ [WVolume] ++ new2). rewrite L2. cbn [warn wlog]. rewrite L1, <- !app_assoc.
          split; [reflexivity|]. rewrite !count_occ_app.
          change (count_occ warning_dec [WVolume] WVolume) with 1%nat. lia.
  Qed.

  (** [init_volume] of a state without body soil. *)
  Lemma init_volume_ok (s : sim (ZNum upm)) old :
    ok (s, old) -> (forall k i j, (body_soil s k i j : Z) = 0) -> floored Lb s ->
    total_soil s + 2 * (nx s * ny s * Lb) <= cz * 2147483647 ->
    exists v, init_volume g s = Ok v /\ cz * v = total_soil s.
  Proof.
    intros (_ & C & _) H0 Hf Hb. pose proof Hg as (_ & _ & Hz & _).
    pose proof (abs_volume_bound s _ C Hf) as B.
    assert (Z0 : forall k i j, cells_in cz (soil_height s k i j) = 0).
    { intros k i j. unfold soil_height. rewrite !H0. apply cells_in_0. exact Hz. }
    assert (S0 : forall f, (forall i j, f i j = 0) -> sum2 (nx s) (ny s) f = 0).
    { intros f Q. destruct C as (N1 & N2 & _).
      rewrite (sum2_ext _ _ f (fun _ _ => 0)) by (intros; apply Q). rewrite sum2_const by lia. lia. }
    rewrite <- (volume_total cz Hz near s _ C).
    unfold abs_volume in B. rewrite (S0 (fun i j => _ + _)) in B
      by (intros i j; rewrite !Z0; reflexivity).
    unfold init_volume, all_cells.
    rewrite (terrain_volume_loop cz).
    - eexists. split; [reflexivity|].
      rewrite (lsum_area (fun i j => cells_in cz (terrain s i j))). unfold volume.
      rewrite (S0 (fun i j => _ + _)) by (intros i j; rewrite !Z0; reflexivity). lia.
    - rewrite (lsum_area (fun i j => Z.abs (cells_in cz (terrain s i j)))). cbn [Z.abs]. nia.
  Qed.
End CheckLoopProofs.
