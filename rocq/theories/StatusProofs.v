(** Meaning of the status codes of relax.cpp, on exact heights. *)
From Coq Require Import ZArith List Bool Lia Permutation.
From Verif Require Import Outcome Num State Base Spec InvBase ModelRelax RelaxBase
  RelaxTerrainProofs RelaxBodyProofs StructProofs EquilibriumProofs
  ModelBodySoil ModelBodyPos ModelUtils ModelStep.
Import ListNotations.
Open Scope Z_scope.

Section Status.
  Context {upm : units}.
  Local Notation sim := (sim (ZNum upm)).
  Local Notation rec := (rec_t (ZNum upm)).
  Variable tol : Z.

  (** First digit: the body layers present at the cell (relax.cpp:266-287). *)
  Definition layers_digit (s : sim) (i j d0 : Z) : Prop :=
    (d0 = 1 /\ body_at s 0 i j /\ ~ body_at s 2 i j) \/
    (d0 = 2 /\ ~ body_at s 0 i j /\ body_at s 2 i j) \/
    (d0 = 3 /\ body_at s 0 i j /\ body_at s 2 i j) \/
    (d0 = 4 /\ ~ body_at s 0 i j /\ ~ body_at s 2 i j).

  (** Second digit: where the soil arrives: 0 the terrain, 1 the soil on the second
      layer, 2 the second layer, 3 the soil on the first layer, 4 the first layer. *)
  Definition surface (s : sim) (i j d1 : Z) : Z :=
    if d1 =? 1 then body_soil s 3 i j
    else if d1 =? 2 then body s 3 i j
    else if d1 =? 3 then body_soil s 1 i j
    else if d1 =? 4 then body s 1 i j
    else terrain s i j.

  (** The digits 1 to 4 of layer [k], with and without soil on it. *)
  Definition on_layer (s : sim) (i j k d1 : Z) : Prop :=
    layer k /\ body_at s k i j /\
    ((soil_on s k i j /\ d1 = 3 - k) \/ (~ soil_on s k i j /\ d1 = 4 - k)).

  (** Layer [k] is the lower one (if both have the same bottom, the second). *)
  Definition lower (s : sim) (i j k : Z) : Prop :=
    (k = 0 /\ (body s 0 i j : Z) < body s 2 i j) \/
    (k = 2 /\ (body s 2 i j : Z) <= body s 0 i j).

  (** The soil on layer [k] reaches the other layer. *)
  Definition full (s : sim) (i j k : Z) : Prop :=
    soil_on s k i j /\ (body s (2 - k) i j : Z) < (body_soil s (k + 1) i j : Z) + tol.

  (** Where soil coming from a neighbouring terrain column arrives: on the terrain
      if there is room under the body; otherwise on the body, on the lower layer
      unless it is full. *)
  Definition from_terrain (s : sim) (i j d1 : Z) : Prop :=
    (d1 = 0 /\ forall k, layer k -> body_at s k i j ->
                 (terrain s i j : Z) + tol < body s k i j) \/
    (exists k, on_layer s i j k d1 /\
       (exists k', layer k' /\ body_at s k' i j /\
                   (body s k' i j : Z) <= (terrain s i j : Z) + tol) /\
       (body_at s (2 - k) i j ->
          (lower s i j k /\ ~ full s i j k) \/
          (lower s i j (2 - k) /\ full s i j (2 - k)))).

  (** Where soil coming from a layer whose top is [base] arrives. *)
  Definition from_body (s : sim) (base : Z) (i j d1 : Z) : Prop :=
    (d1 = 0 /\ ~ (body_at s 0 i j /\ body_at s 2 i j) /\
       forall k, layer k -> body_at s k i j -> base + tol < body s k i j) \/
    (exists k, on_layer s i j k d1 /\
       (~ body_at s (2 - k) i j -> (body s k i j : Z) <= base + tol) /\
       (body_at s (2 - k) i j ->
          (lower s i j k /\ base + tol < body s (2 - k) i j /\
             (soil_on s k i j -> (body_soil s (k + 1) i j : Z) + tol < body s (2 - k) i j)) \/
          (lower s i j (2 - k) /\
             ~ (base + tol < body s k i j /\
                (soil_on s (2 - k) i j ->
                   (body_soil s (2 - k + 1) i j : Z) + tol < body s k i j))))).

  Lemma body_dec (s : sim) k i j :
    (body_absent s k i j = false /\ body_at s k i j) \/
    (body_absent s k i j = true /\ ~ body_at s k i j).
  Proof.
    rewrite <- body_absent_true, <- body_absent_spec. destruct (body_absent s k i j); auto.
  Qed.

  Lemma on_layer_soil (s : sim) i j k :
    layer k -> body_at s k i j -> soil_on s k i j -> on_layer s i j k (3 - k).
  Proof. intros. split; auto. Qed.
  Lemma on_layer_bare (s : sim) i j k :
    layer k -> body_at s k i j -> ~ soil_on s k i j -> on_layer s i j k (4 - k).
  Proof. intros. split; auto. Qed.

  Lemma layer0 : layer 0. Proof. left; auto. Qed.
  Lemma layer2 : layer 2. Proof. right; auto. Qed.

  Ltac digits := unfold layers_digit; tauto.
  Ltac same_code :=
    change (3 - 2) with 1; change (3 - 0) with 3; change (4 - 2) with 2; change (4 - 0) with 4;
    unfold surface; cbn [Z.eqb Pos.eqb];
    repeat match goal with |- context [?a <? ?b] => destruct (a <? b) end; reflexivity.

  Theorem check_terrain_meaning (s : sim) i j h_min :
    exists d0 d1, layers_digit s i j d0 /\ from_terrain s i j d1 /\
      check_unstable_terrain_cell (A := ZNum upm) tol s i j h_min =
      if (terrain s i j + tol <? h_min) && (surface s i j d1 + tol <? h_min)
      then 10 * d0 + d1 else 0.
  Proof.
    unfold check_unstable_terrain_cell. zn.
    pose proof layer0 as L0. pose proof layer2 as L2.
    (* one branch landing on layer k *)
    assert (Land : forall k d1, on_layer s i j k d1 ->
      (exists k', layer k' /\ body_at s k' i j /\
                   (body s k' i j : Z) <= (terrain s i j : Z) + tol) ->
      (body_at s (2 - k) i j ->
          (lower s i j k /\ ~ full s i j k) \/
          (lower s i j (2 - k) /\ full s i j (2 - k))) -> from_terrain s i j d1).
    { intros k d1 H1 H2 H3. right. exists k. auto. }
    destruct (body_dec s 0 i j) as [[E0 B0]|[E0 B0]]; rewrite E0;
      destruct (body_dec s 2 i j) as [[E2 B2]|[E2 B2]]; rewrite E2; cbn [andb].
    - exists 3.
      assert (Two : forall kb, layer kb -> lower s i j kb ->
        exists d1, from_terrain s i j d1 /\
          (if terrain s i j + tol <? h_min
           then
             if terrain s i j + tol <? body s kb i j then 30
             else if soil_present s kb i j then
               if body s (2 - kb) i j <? body_soil s (kb + 1) i j + tol then
                 if soil_present s (2 - kb) i j
                 then if body_soil s (2 - kb + 1) i j + tol <? h_min then 30 + (kb + 1) else 0
                 else if body s (2 - kb + 1) i j + tol <? h_min then 30 + (kb + 2) else 0
               else if body_soil s (kb + 1) i j + tol <? h_min then 30 + (2 - kb + 1) else 0
             else if body s (kb + 1) i j + tol <? h_min then 30 + (2 - kb + 2) else 0
           else 0) =
          (if (terrain s i j + tol <? h_min) && (surface s i j d1 + tol <? h_min)
           then 10 * 3 + d1 else 0)).
      { intros kb Hkb Hlow.
        assert (Bkb : body_at s kb i j) by (destruct Hkb as [->| ->]; auto).
        assert (Bkt : body_at s (2 - kb) i j) by (destruct Hkb as [->| ->]; auto).
        assert (Hkt : layer (2 - kb)) by (unfold layer in *; lia).
        destruct (Z.ltb_spec (terrain s i j + tol) (body s kb i j)) as [Q|Q].
        { exists 0. split; [|same_code]. left. split; [auto|]. intros k Hk _.
          unfold lower, layer in *. zn.
          destruct Hkb as [->| ->], Hk as [->| ->]; try lia. }
        assert (G : exists k', layer k' /\ body_at s k' i j /\
                   (body s k' i j : Z) <= (terrain s i j : Z) + tol) by eauto.
        destruct (soil_cases s kb i j) as [[-> S]|[-> S]].
        - destruct (Z.ltb_spec (body s (2 - kb) i j) (body_soil s (kb + 1) i j + tol)) as [Q'|Q'].
          + assert (Fu : full s i j (2 - (2 - kb))).
            { replace (2 - (2 - kb)) with kb by lia. split; auto. }
            assert (Lo : lower s i j (2 - (2 - kb))).
            { replace (2 - (2 - kb)) with kb by lia. auto. }
            destruct (soil_cases s (2 - kb) i j) as [[-> S']|[-> S']].
            * exists (3 - (2 - kb)). split; [apply (Land (2 - kb)); auto using on_layer_soil|].
              destruct Hkb as [->| ->]; kred; same_code.
            * exists (4 - (2 - kb)). split; [apply (Land (2 - kb)); auto using on_layer_bare|].
              destruct Hkb as [->| ->]; kred; same_code.
          + exists (3 - kb). split.
            * apply (Land kb); auto using on_layer_soil. intros _. left. split; [auto|].
              intros [_ Fu]. zn. lia.
            * destruct Hkb as [->| ->]; kred; same_code.
        - exists (4 - kb). split.
          + apply (Land kb); auto using on_layer_bare. intros _. left. split; [auto|].
            intros [Fu _]. auto.
          + destruct Hkb as [->| ->]; kred; same_code. }
      destruct (Z.ltb_spec (body s 0 i j) (body s 2 i j)) as [Q|Q].
      + destruct (Two 0) as (d1 & H1 & H2); [auto|left; auto|]. exists d1.
        split; [digits|]. split; [auto|exact H2].
      + destruct (Two 2) as (d1 & H1 & H2); [auto|right; auto|]. exists d1.
        split; [digits|]. split; [auto|exact H2].
    - exists 1. destruct (Z.ltb_spec (terrain s i j + tol) (body s 0 i j)) as [Q|Q].
      + exists 0. split; [digits|]. split; [|same_code].
        left. split; [auto|]. intros k [->| ->] Hb; [auto|contradiction].
      + destruct (soil_cases s 0 i j) as [[-> S]|[-> S]].
        * exists 3. split; [digits|]. split; [|same_code].
          apply (Land 0); [apply (on_layer_soil s i j 0); auto|eauto|intros; contradiction].
        * exists 4. split; [digits|]. split; [|same_code].
          apply (Land 0); [apply (on_layer_bare s i j 0); auto|eauto|intros; contradiction].
    - exists 2. destruct (Z.ltb_spec (terrain s i j + tol) (body s 2 i j)) as [Q|Q].
      + exists 0. split; [digits|]. split; [|same_code].
        left. split; [auto|]. intros k [->| ->] Hb; [contradiction|auto].
      + destruct (soil_cases s 2 i j) as [[-> S]|[-> S]].
        * exists 1. split; [digits|]. split; [|same_code].
          apply (Land 2); [apply (on_layer_soil s i j 2); auto|eauto|intros; contradiction].
        * exists 2. split; [digits|]. split; [|same_code].
          apply (Land 2); [apply (on_layer_bare s i j 2); auto|eauto|intros; contradiction].
    - exists 4, 0. split; [digits|]. split; [|same_code].
      left. split; [auto|]. intros k [->| ->] Hb; contradiction.
  Qed.

  (** The digits are determined. *)
  Lemma layers_digit_unique (s : sim) i j d d' :
    layers_digit s i j d -> layers_digit s i j d' -> d = d'.
  Proof.
    unfold layers_digit. intros H H'.
    repeat match goal with H : _ \/ _ |- _ => destruct H end;
    repeat match goal with H : _ /\ _ |- _ => destruct H end; subst; tauto.
  Qed.

  Lemma on_layer_unique (s : sim) i j k d d' :
    on_layer s i j k d -> on_layer s i j k d' -> d = d'.
  Proof. unfold on_layer. intros (_ & _ & H) (_ & _ & H'). intuition congruence. Qed.

  Lemma lower_unique (s : sim) i j k : lower s i j k -> ~ lower s i j (2 - k).
  Proof. unfold lower. intros H H'. zn. lia. Qed.

  Lemma from_terrain_unique (s : sim) i j d d' :
    from_terrain s i j d -> from_terrain s i j d' -> d = d'.
  Proof.
    assert (X : forall k, (exists k', layer k' /\ body_at s k' i j /\
                   (body s k' i j : Z) <= (terrain s i j : Z) + tol) ->
                (forall k, layer k -> body_at s k i j -> (terrain s i j : Z) + tol < body s k i j) ->
                layer k -> False).
    { intros _ (k' & H1 & H2 & H3) H _. specialize (H k' H1 H2). zn. lia. }
    intros [[-> H]|(k & H1 & H2 & H3)] [[-> H']|(k' & H1' & H2' & H3')]; auto.
    - exfalso. eapply X; eauto. apply H1'.
    - exfalso. eapply X; eauto. apply H1.
    - destruct (Z.eq_dec k k') as [->|N]; [eapply on_layer_unique; eauto|]. exfalso.
      assert (Ek : k' = 2 - k).
      { destruct H1 as ([->| ->] & _), H1' as ([->| ->] & _); lia. }
      subst k'. replace (2 - (2 - k)) with k in * by lia.
      specialize (H3 (proj1 (proj2 H1'))). specialize (H3' (proj1 (proj2 H1))).
      pose proof (lower_unique s i j k). tauto.
  Qed.

  Theorem check_body_meaning (s : sim) i0 j0 ind i j h_min :
    exists d0 d1, layers_digit s i j d0 /\ from_body s (body s (ind + 1) i0 j0) i j d1 /\
      check_unstable_body_cell (A := ZNum upm) tol s i0 j0 ind i j h_min =
      Some (if surface s i j d1 + tol <? h_min then 10 * d0 + d1 else 0).
  Proof.
    unfold check_unstable_body_cell. zn.
    pose proof layer0 as L0. pose proof layer2 as L2.
    set (base := body s (ind + 1) i0 j0 : Z).
    destruct (body_dec s 0 i j) as [[E0 B0]|[E0 B0]]; rewrite E0;
      destruct (body_dec s 2 i j) as [[E2 B2]|[E2 B2]]; rewrite E2; cbn [andb].
    - exists 3.
      assert (Two : forall kb, layer kb -> lower s i j kb ->
        exists d1, from_body s base i j d1 /\
          (let
             '(status, column_top) :=
              if base + tol <? body s (2 - kb) i j
              then
               if soil_present s kb i j
               then
                if body_soil s (kb + 1) i j + tol <? body s (2 - kb) i j
                then (30 + (2 - kb + 1), Some (body_soil s (kb + 1) i j))
                else (30, None)
               else (30 + (2 - kb + 2), Some (body s (kb + 1) i j))
              else (30, None) in
              let
              '(status0, column_top0) :=
               if (body s (2 - kb) i j <? base + tol) || (status =? 30)
               then
                if soil_present s (2 - kb) i j
                then (status + (kb + 1), Some (body_soil s (2 - kb + 1) i j))
                else (status + (kb + 2), Some (body s (2 - kb + 1) i j))
               else (status, column_top) in
               match column_top0 with
               | Some c => Some (if c + tol <? h_min then status0 else 0)
               | None => None
               end) =
          Some (if surface s i j d1 + tol <? h_min then 10 * 3 + d1 else 0)).
      { intros kb Hkb Hlow.
        assert (Bkb : body_at s kb i j) by (destruct Hkb as [->| ->]; auto).
        assert (Bkt : body_at s (2 - kb) i j) by (destruct Hkb as [->| ->]; auto).
        assert (Hkt : layer (2 - kb)) by (unfold layer in *; lia).
        assert (Lo : lower s i j (2 - (2 - kb))).
        { replace (2 - (2 - kb)) with kb by lia. auto. }
        assert (Bot : forall d1, on_layer s i j kb d1 ->
          base + tol < body s (2 - kb) i j ->
          (soil_on s kb i j -> (body_soil s (kb + 1) i j : Z) + tol < body s (2 - kb) i j) ->
          from_body s base i j d1).
        { intros d1 H1 H2 H3. right. exists kb. split; [auto|]. split; [tauto|]. intros _. left.
          auto. }
        assert (Top : 
          ~ (base + tol < body s (2 - kb) i j /\
              (soil_on s kb i j -> (body_soil s (kb + 1) i j : Z) + tol < body s (2 - kb) i j)) ->
          exists d1, from_body s base i j d1 /\
          (if soil_present s (2 - kb) i j
           then Some (if body_soil s (2 - kb + 1) i j + tol <? h_min then 30 + (kb + 1) else 0)
           else Some (if body s (2 - kb + 1) i j + tol <? h_min then 30 + (kb + 2) else 0)) =
          Some (if surface s i j d1 + tol <? h_min then 10 * 3 + d1 else 0)).
        { intros H.
          assert (X : forall d1, on_layer s i j (2 - kb) d1 -> from_body s base i j d1).
          { intros d1 H1. right. exists (2 - kb). split; [auto|].
            replace (2 - (2 - kb)) with kb in * by lia. split; [tauto|].
            intros _. right. split; auto. }
          destruct (soil_cases s (2 - kb) i j) as [[-> S']|[-> S']].
          * exists (3 - (2 - kb)). split; [apply X; auto using on_layer_soil|].
            destruct Hkb as [->| ->]; kred; same_code.
          * exists (4 - (2 - kb)). split; [apply X; auto using on_layer_bare|].
            destruct Hkb as [->| ->]; kred; same_code. }
        destruct (Z.ltb_spec base (body s (2 - kb) i j - tol)).
        - destruct (Z.ltb_spec (base + tol) (body s (2 - kb) i j)) as [Q|Q]; [|zn; lia].
          assert (Nq : (body s (2 - kb) i j <? base + tol) = false) by (apply Z.ltb_ge; zn; lia).
          destruct (soil_cases s kb i j) as [[-> S]|[-> S]].
          + destruct (Z.ltb_spec (body_soil s (kb + 1) i j + tol) (body s (2 - kb) i j)) as [Q'|Q'].
            * exists (3 - kb). split; [apply Bot; auto using on_layer_soil|].
              rewrite Nq. destruct Hkb as [->| ->]; kred; cbn [orb];
                change (30 + 3 =? 30) with false; change (30 + 1 =? 30) with false;
                change (30 + (2 + 2) =? 30) with false; change (30 + (0 + 2) =? 30) with false;
                same_code.
            * destruct Top as (d1 & T1 & T2); [intros [_ X]; specialize (X S); zn; lia|].
              exists d1. split; [auto|]. rewrite <- T2. rewrite orb_true_r.
              destruct (soil_present s (2 - kb) i j); reflexivity.
          + exists (4 - kb). split; [apply Bot; auto using on_layer_bare; tauto|].
            rewrite Nq. destruct Hkb as [->| ->]; kred; cbn [orb];
                change (30 + 3 =? 30) with false; change (30 + 1 =? 30) with false;
                change (30 + (2 + 2) =? 30) with false; change (30 + (0 + 2) =? 30) with false;
                same_code.
        - destruct (Z.ltb_spec (base + tol) (body s (2 - kb) i j)) as [Q|Q]; [zn; lia|].
          destruct Top as (d1 & T1 & T2); [intros [X _]; zn; lia|].
          exists d1. split; [auto|]. rewrite <- T2. rewrite orb_true_r.
          destruct (soil_present s (2 - kb) i j); reflexivity. }
      destruct (Z.ltb_spec (body s 0 i j) (body s 2 i j)) as [Q|Q].
      + destruct (Two 0) as (d1 & H1 & H2); [auto|left; auto|]. exists d1.
        split; [digits|]. split; [auto|exact H2].
      + destruct (Two 2) as (d1 & H1 & H2); [auto|right; auto|]. exists d1.
        split; [digits|]. split; [auto|exact H2].
    - exists 1. destruct (Z.ltb_spec (base + tol) (body s 0 i j)) as [Q|Q].
      + exists 0. split; [digits|]. split; [|same_code].
        left. split; [auto|]. split; [tauto|]. intros k [->| ->] Hb; [auto|contradiction].
      + assert (X : forall d1, on_layer s i j 0 d1 -> from_body s base i j d1).
        { intros d1 H1. right. exists 0. split; [auto|]. split; [auto|]. intros; contradiction. }
        destruct (soil_cases s 0 i j) as [[-> S]|[-> S]].
        * exists 3. split; [digits|]. split; [|same_code].
          apply X, (on_layer_soil s i j 0); auto.
        * exists 4. split; [digits|]. split; [|same_code].
          apply X, (on_layer_bare s i j 0); auto.
    - exists 2. destruct (Z.ltb_spec (base + tol) (body s 2 i j)) as [Q|Q].
      + exists 0. split; [digits|]. split; [|same_code].
        left. split; [auto|]. split; [tauto|]. intros k [->| ->] Hb; [contradiction|auto].
      + assert (X : forall d1, on_layer s i j 2 d1 -> from_body s base i j d1).
        { intros d1 H1. right. exists 2. split; [auto|]. split; [auto|]. intros; contradiction. }
        destruct (soil_cases s 2 i j) as [[-> S]|[-> S]].
        * exists 1. split; [digits|]. split; [|same_code].
          apply X, (on_layer_soil s i j 2); auto.
        * exists 2. split; [digits|]. split; [|same_code].
          apply X, (on_layer_bare s i j 2); auto.
    - exists 4, 0. split; [digits|]. split; [|same_code].
      left. split; [auto|]. split; [tauto|]. intros k [->| ->] Hb; contradiction.
  Qed.

  Lemma from_body_unique (s : sim) base i j d d' :
    from_body s base i j d -> from_body s base i j d' -> d = d'.
  Proof.
    intros [(-> & Nb & H)|(k & H1 & H2 & H3)] [(-> & Nb' & H')|(k' & H1' & H2' & H3')]; auto.
    - exfalso. destruct H1' as (Lk & Bk & _).
      assert (~ body_at s (2 - k') i j) by (destruct Lk as [->| ->]; kred; tauto).
      specialize (H k' Lk Bk). specialize (H2' H0). zn. lia.
    - exfalso. destruct H1 as (Lk & Bk & _).
      assert (~ body_at s (2 - k) i j) by (destruct Lk as [->| ->]; kred; tauto).
      specialize (H' k Lk Bk). specialize (H2 H). zn. lia.
    - destruct (Z.eq_dec k k') as [->|N]; [eapply on_layer_unique; eauto|]. exfalso.
      assert (Ek : k' = 2 - k).
      { destruct H1 as ([->| ->] & _), H1' as ([->| ->] & _); lia. }
      subst k'. replace (2 - (2 - k)) with k in * by lia.
      specialize (H3 (proj1 (proj2 H1'))). specialize (H3' (proj1 (proj2 H1))).
      pose proof (lower_unique s i j k). tauto.
  Qed.
End Status.
