(** The three elementary changes of the soil (taking soil from a record, putting
    soil on the body, changing the terrain) keep the data consistent. *)
From Coq Require Import ZArith List Bool Lia Permutation.
From Verif Require Import Outcome Num State Base Spec.
Import ListNotations.
Open Scope Z_scope.
Set Default Proof Using "Type".

Section InvBase.
  Context {upm : units}.
  Local Notation sim := (sim (ZNum upm)).
  Local Notation rec := (rec_t (ZNum upm)).

  Definition teq (s s' : sim) : Prop :=
    forall i j, (terrain s' i j : Z) = terrain s i j.
  Definition beq (s s' : sim) : Prop :=
    forall k i j, (body s' k i j : Z) = body s k i j.
  Definition bseq (s s' : sim) : Prop :=
    forall k i j, (body_soil s' k i j : Z) = body_soil s k i j.
  Definition same_dims (s s' : sim) : Prop := nx s' = nx s /\ ny s' = ny s.

  Lemma matches_spec (e : rec) k i j :
    matches e k i j = true <-> e_ind e = k /\ e_i e = i /\ e_j e = j.
  Proof. unfold matches. rewrite !andb_true_iff, !Z.eqb_eq. tauto. Qed.

  (** ** Records *)

  Lemma recorded_app (l l' : list rec) k i j :
    recorded (l ++ l') k i j = recorded l k i j + recorded l' k i j.
  Proof.
    induction l as [|e l IH]; cbn [recorded app]; [lia|]. rewrite IH. lia.
  Qed.

  Lemma recorded_nonneg (l : list rec) k i j :
    Forall (fun e : rec => 0 <= (e_h e : Z)) l -> 0 <= recorded l k i j.
  Proof.
    induction 1; cbn [recorded]; [lia|]. destruct (matches _ _ _ _); lia.
  Qed.

  Lemma recorded_in (l : list rec) nn e :
    Forall (fun e : rec => 0 <= (e_h e : Z)) l -> nth_error l nn = Some e ->
    (e_h e : Z) <= recorded l (e_ind e) (e_i e) (e_j e).
  Proof.
    intros H. revert nn. induction H as [|x l Hx H IH]; intros [|nn]; cbn;
      try discriminate.
    - intros [= ->]. rewrite (proj2 (matches_spec e _ _ _)) by auto.
      pose proof (recorded_nonneg l (e_ind e) (e_i e) (e_j e) H). lia.
    - intros Hn. specialize (IH _ Hn).
      destruct (matches x _ _ _); lia.
  Qed.

  Lemma recorded_list_set (l : list rec) nn e (h : Z) k i j :
    nth_error l nn = Some e ->
    recorded (list_set l nn (rec_with_h e h)) k i j =
    recorded l k i j + (if matches e k i j then h - (e_h e : Z) else 0).
  Proof.
    revert nn. induction l as [|x l IH]; intros [|nn]; cbn [nth_error list_set recorded];
      try discriminate.
    - intros [= ->].
      change (matches (rec_with_h e h) k i j) with (matches e k i j).
      destruct (matches e k i j); cbn [rec_with_h e_h]; lia.
    - intros Hn. rewrite (IH _ Hn). destruct (matches x k i j); lia.
  Qed.

  Lemma listed_list_set (l : list rec) nn e h k i j :
    nth_error l nn = Some e -> listed l k i j ->
    listed (list_set l nn (rec_with_h e h)) k i j.
  Proof.
    intros Hn (x & Hx & M).
    destruct (list_set_split l nn (rec_with_h e h) e Hn) as (l1 & l2 & E1 & E2 & _).
    rewrite E2. rewrite E1 in Hx. apply in_app_iff in Hx as [Hx|[->|Hx]].
    - exists x. rewrite in_app_iff. auto.
    - exists (rec_with_h x h). rewrite in_app_iff. cbn. auto.
    - exists x. rewrite in_app_iff. cbn. auto.
  Qed.

  Lemma listed_app_l (l l' : list rec) k i j : listed l k i j -> listed (l ++ l') k i j.
  Proof. intros (x & Hx & M). exists x. rewrite in_app_iff. auto. Qed.

  Lemma recorded_permutation (l l' : list rec) k i j :
    Permutation l l' -> recorded l k i j = recorded l' k i j.
  Proof.
    induction 1; cbn [recorded]; try lia.
  Qed.

  (** ** Alignment *)

  Lemma aligned_0 cz : aligned cz 0.
  Proof. apply Z.divide_0_r. Qed.
  Lemma aligned_add cz a b : aligned cz a -> aligned cz b -> aligned cz (a + b).
  Proof. apply Z.divide_add_r. Qed.
  Lemma aligned_sub cz a b : aligned cz a -> aligned cz b -> aligned cz (a - b).
  Proof. apply Z.divide_sub_r. Qed.
  Lemma aligned_mul cz q : aligned cz (cz * q).
  Proof. apply Z.divide_factor_l. Qed.

  (** Comparisons of aligned numbers are at least one cell apart. *)
  Lemma aligned_lt cz a b : 0 < cz -> aligned cz a -> aligned cz b -> a < b ->
    a + cz <= b.
  Proof. intros Hcz (p & ->) (q & ->) H. assert (p < q) by nia. nia. Qed.
  Lemma aligned_le cz a b t : 0 < cz -> t < cz -> aligned cz a -> aligned cz b ->
    a <= b + t -> a <= b.
  Proof.
    intros Hcz Ht Ha Hb H. destruct (Z_le_gt_dec a b) as [|G]; auto.
    pose proof (aligned_lt cz b a Hcz Hb Ha). lia.
  Qed.

  (** ** Equivalent states *)

  (** Same heights: everything the predicates of Spec.v look at. *)
  Definition same_heights (s s' : sim) : Prop :=
    same_dims s s' /\ teq s s' /\ beq s s' /\ bseq s s'.

  Lemma same_heights_refl s : same_heights s s.
  Proof. repeat split. Qed.

  Lemma same_heights_trans s1 s2 s3 :
    same_heights s1 s2 -> same_heights s2 s3 -> same_heights s1 s3.
  Proof.
    intros ((A1 & A2) & A3 & A4 & A5) ((B1 & B2) & B3 & B4 & B5).
    split; [split; congruence|]. split; [|split].
    - intros i j. rewrite B3. apply A3.
    - intros k i j. rewrite B4. apply A4.
    - intros k i j. rewrite B5. apply A5.
  Qed.

  Lemma soil_at_same s s' i j : same_heights s s' -> soil_at s' i j = soil_at s i j.
  Proof.
    intros (_ & Ht & _ & Hs). unfold soil_at, soil_height.
    rewrite Ht, !Hs. reflexivity.
  Qed.

  Lemma total_soil_same s s' : same_heights s s' -> total_soil s' = total_soil s.
  Proof.
    intros H. unfold total_soil. destruct (proj1 H) as [-> ->].
    apply sum2_ext. intros. apply soil_at_same; auto.
  Qed.

  Lemma terrain_below_same s s' : same_heights s s' -> terrain_below s -> terrain_below s'.
  Proof.
    intros ((E1 & E2) & Ht & Hb & Hs) H i j k. specialize (H i j k).
    unfold on_grid, body_at in *. rewrite E1, E2, Ht, !Hb. auto.
  Qed.

  Lemma soil_below_same s s' : same_heights s s' -> soil_below s -> soil_below s'.
  Proof.
    intros ((E1 & E2) & Ht & Hb & Hs) H i j k. specialize (H i j k).
    unfold on_grid, body_at, soil_on in *. rewrite E1, E2, !Hs, !Hb. auto.
  Qed.

  Lemma cell_aligned_same cz s s' i j :
    same_heights s s' -> cell_aligned cz s i j -> cell_aligned cz s' i j.
  Proof.
    intros (_ & Ht & Hb & Hs) [H1 H2]. split; [rewrite Ht; auto|].
    intros k Hk. rewrite Hb, Hs. auto.
  Qed.

  Lemma cell_body_same s s' i j :
    same_dims s s' -> beq s s' -> cell_body s i j -> cell_body s' i j.
  Proof.
    intros (E1 & E2) Hb [H1 H2].
    unfold cell_body, body_at, inside in *. rewrite E1, E2.
    split; intros *; rewrite !Hb; auto.
  Qed.

  Lemma cell_soil_same s s' l i j :
    beq s s' -> bseq s s' -> cell_soil s l i j -> cell_soil s' l i j.
  Proof.
    intros Hb Hs H k Hk. specialize (H k Hk).
    unfold soil_on, body_at, soil_height in *. rewrite !Hb, !Hs. auto.
  Qed.

  (** ** A change in layer [k] of one cell *)

  (** [s'] has [lo], [hi] as soil layer [k] of the cell; nothing else differs. *)
  Definition soil_set (s s' : sim) (k i j lo hi : Z) : Prop :=
    same_dims s s' /\ teq s s' /\ beq s s' /\
    (body_soil s' k i j : Z) = lo /\ (body_soil s' (k + 1) i j : Z) = hi /\
    forall k' i' j', ~ ((k' = k \/ k' = k + 1) /\ i' = i /\ j' = j) ->
      (body_soil s' k' i' j' : Z) = body_soil s k' i' j'.

  Lemma soil_set_other_layer s s' k i j lo hi k' i' j' :
    soil_set s s' k i j lo hi -> layer k -> layer k' ->
    ~ (k' = k /\ i' = i /\ j' = j) ->
    (body_soil s' k' i' j' : Z) = body_soil s k' i' j' /\
    (body_soil s' (k' + 1) i' j' : Z) = body_soil s (k' + 1) i' j'.
  Proof.
    intros (_ & _ & _ & _ & _ & H) Hk Hk' N. unfold layer in *.
    split; apply H; lia.
  Qed.

  Lemma soil_set_total s s' k i j lo hi :
    soil_set s s' k i j lo hi -> layer k -> on_grid s i j ->
    total_soil s' = total_soil s + (hi - lo - soil_height s k i j).
  Proof.
    intros H Hk [Hi Hj]. unfold total_soil.
    pose proof H as ((-> & ->) & Ht & Hb & Hlo & Hhi & Ho).
    rewrite (sum2_change1 (nx s) (ny s) (soil_at s') (soil_at s) i j); auto.
    - f_equal. unfold soil_at, soil_height. rewrite Ht.
      assert (layer 0 /\ layer 2) as [L0 L2] by (unfold layer; auto).
      destruct Hk as [->| ->].
      + destruct (soil_set_other_layer _ _ _ _ _ _ _ 2 i j H) as [-> ->]; auto; lia.
      + destruct (soil_set_other_layer _ _ _ _ _ _ _ 0 i j H) as [-> ->]; auto; lia.
    - intros i' j' _ _ N. unfold soil_at, soil_height. rewrite Ht.
      assert (~ (i' = i /\ j' = j)) by (intros [-> ->]; auto).
      rewrite !Ho by tauto. reflexivity.
  Qed.

  Lemma soil_set_terrain_below s s' k i j lo hi :
    soil_set s s' k i j lo hi -> terrain_below s -> terrain_below s'.
  Proof.
    intros ((E1 & E2) & Ht & Hb & _) H i' j' k'. specialize (H i' j' k').
    unfold on_grid, body_at in *. rewrite E1, E2, Ht, !Hb. auto.
  Qed.

  Lemma soil_set_soil_below s s' k i j lo hi :
    soil_set s s' k i j lo hi -> layer k ->
    (lo <> 0 \/ hi <> 0 -> body_at s (2 - k) i j ->
     (body s k i j : Z) < (body s (2 - k) i j : Z) -> hi <= (body s (2 - k) i j : Z)) ->
    soil_below s -> soil_below s'.
  Proof.
    intros Hset Hk Hcond H i' j' k' Hg Hk'. specialize (H i' j' k').
    pose proof Hset as ((E1 & E2) & Ht & Hb & Hlo & Hhi & Ho).
    unfold on_grid, soil_on, body_at in *. rewrite E1, E2 in Hg. rewrite !Hb.
    destruct (Z.eq_dec k' k) as [->|]; [destruct (Z.eq_dec i' i) as [->|];
      [destruct (Z.eq_dec j' j) as [->|]|]|].
    - rewrite Hlo, Hhi. auto.
    - destruct (soil_set_other_layer _ _ _ _ _ _ _ k i j' Hset) as [-> ->]; auto; tauto.
    - destruct (soil_set_other_layer _ _ _ _ _ _ _ k i' j' Hset) as [-> ->]; auto; tauto.
    - destruct (soil_set_other_layer _ _ _ _ _ _ _ k' i' j' Hset) as [-> ->]; auto; tauto.
  Qed.

  (** ** Taking soil out of a record *)

  Definition taken_lo (s : sim) (k i j h : Z) : Z :=
    if h <? soil_height s k i j then body_soil s k i j else 0.
  Definition taken_hi (s : sim) (k i j h : Z) : Z :=
    if h <? soil_height s k i j then body_soil s (k + 1) i j - h else 0.

  (** ** Putting soil on a body layer *)

  (** Top of the column of layer [k]: the soil if there is some, else the body. *)
  Definition column_top (s : sim) (k i j : Z) : Z :=
    if soil_present s k i j then body_soil s (k + 1) i j else body s (k + 1) i j.

  Lemma soil_present_spec (s : sim) k i j : soil_present s k i j = true <-> soil_on s k i j.
  Proof.
    unfold soil_present, soil_on. cbn.
    rewrite orb_true_iff, !negb_true_iff, !Z.eqb_neq. tauto.
  Qed.
  Lemma soil_present_false (s : sim) k i j :
    soil_present s k i j = false <->
    (body_soil s k i j : Z) = 0 /\ (body_soil s (k + 1) i j : Z) = 0.
  Proof.
    unfold soil_present. cbn.
    rewrite orb_false_iff, !negb_false_iff, !Z.eqb_eq. tauto.
  Qed.
  Lemma body_present_spec (s : sim) k i j : body_present s k i j = true <-> body_at s k i j.
  Proof.
    unfold body_present, body_at. cbn.
    rewrite orb_true_iff, !negb_true_iff, !Z.eqb_neq. tauto.
  Qed.
  Lemma body_absent_spec (s : sim) k i j : body_absent s k i j = false <-> body_at s k i j.
  Proof.
    unfold body_absent, body_at. cbn.
    rewrite andb_false_iff, !Z.eqb_neq. tauto.
  Qed.
  Lemma body_absent_true (s : sim) k i j : body_absent s k i j = true <-> ~ body_at s k i j.
  Proof.
    rewrite <- body_absent_spec. destruct (body_absent s k i j); split; congruence.
  Qed.

  (** ** Changing the terrain *)

  Definition terrain_set (s s' : sim) (i j v : Z) : Prop :=
    same_dims s s' /\ beq s s' /\ bseq s s' /\
    (terrain s' i j : Z) = v /\
    forall i' j', ~ (i' = i /\ j' = j) -> (terrain s' i' j' : Z) = terrain s i' j'.



  Variable near : Pos (ZNum upm) -> Prop.
  Variable cz : Z.

  Lemma rec_ok_nonneg s (l : list rec) :
    Forall (rec_ok near cz s) l -> Forall (fun e : rec => 0 <= (e_h e : Z)) l.
  Proof. apply Forall_impl. unfold rec_ok. tauto. Qed.

  Lemma rec_ok_dims s s' e : same_dims s s' -> rec_ok near cz s e -> rec_ok near cz s' e.
  Proof.
    intros [E1 E2]. unfold rec_ok, inside. rewrite E1, E2. tauto.
  Qed.

  Lemma consistent_same s s' l :
    same_heights s s' -> consistent near cz s l -> consistent near cz s' l.
  Proof.
    intros H (N1 & N2 & H1 & H2). pose proof H as ((E1 & E2) & Ht & Hb & Hs).
    split; [lia|]. split; [lia|]. split.
    - intros i j Hg. unfold on_grid in Hg. rewrite E1, E2 in Hg.
      destruct (H1 i j Hg) as (A1 & A2 & A3). split; [|split].
      + eapply cell_aligned_same; eauto.
      + eapply cell_body_same; eauto. split; auto.
      + eapply cell_soil_same; eauto.
    - eapply Forall_impl; [|exact H2]. intros e. apply rec_ok_dims. split; auto.
  Qed.

  Lemma consistent_permutation (s : sim) l l' :
    Permutation l l' -> consistent near cz s l -> consistent near cz s l'.
  Proof.
    intros P (N1 & N2 & H1 & H2). split; [auto|]. split; [auto|]. split.
    - intros i j Hg. destruct (H1 i j Hg) as (A1 & A2 & A3).
      split; [auto|]. split; [auto|].
      intros k Hk. destruct (A3 k Hk) as (B1 & B2). split.
      + intros Hs. destruct (B1 Hs) as (C1 & C2 & x & Hx & M).
        split; [auto|]. split; [auto|]. exists x. split; auto.
        eapply Permutation_in; eauto.
      + rewrite B2. apply recorded_permutation; auto.
    - eapply Permutation_Forall; eauto.
  Qed.

  (** General form: the soil of one layer of one cell changes together with the
      records. *)
  Lemma consistent_soil_set s s' l l' k i j lo hi :
    consistent near cz s l -> soil_set s s' k i j lo hi -> layer k ->
    on_grid s i j -> aligned cz lo -> aligned cz hi ->
    (lo <> 0 \/ hi <> 0 ->
       body_at s k i j /\ lo = body s (k + 1) i j /\ listed l' k i j) ->
    hi - lo = recorded l' k i j ->
    (forall k' i' j', ~ (k' = k /\ i' = i /\ j' = j) ->
       recorded l' k' i' j' = recorded l k' i' j') ->
    (forall k' i' j', listed l k' i' j' -> listed l' k' i' j') ->
    Forall (rec_ok near cz s) l' ->
    consistent near cz s' l'.
  Proof.
    intros (N1 & N2 & H1 & H2) Hset Hk Hg Alo Ahi Hon Hrec Hrec' Hl Hok.
    pose proof Hset as ((E1 & E2) & Ht & Hb & Hlo & Hhi & Ho).
    split; [lia|]. split; [lia|]. split.
    - intros i' j' Hg'. unfold on_grid in Hg'. rewrite E1, E2 in Hg'.
      destruct (H1 i' j' Hg') as (A1 & A2 & A3). split; [|split].
      + destruct A1 as [B1 B2]. split; [rewrite Ht; auto|].
        intros k' Hk'. rewrite Hb. split; [apply B2; auto|].
        destruct (Z.eq_dec i' i) as [->|]; [|rewrite Ho by tauto; apply B2; auto].
        destruct (Z.eq_dec j' j) as [->|]; [|rewrite Ho by tauto; apply B2; auto].
        destruct (Z.eq_dec k' k) as [->|]; [rewrite Hlo; auto|].
        destruct (Z.eq_dec k' (k + 1)) as [->|]; [rewrite Hhi; auto|].
        rewrite Ho by tauto; apply B2; auto.
      + eapply cell_body_same; eauto. split; auto.
      + intros k' Hk'. destruct (A3 k' Hk') as [B1 B2].
        unfold soil_on, soil_height, body_at in *. rewrite !Hb.
        assert (Hoth : ~ (k' = k /\ i' = i /\ j' = j) ->
          ((body_soil s' k' i' j' : Z) <> 0 \/ (body_soil s' (k' + 1) i' j' : Z) <> 0 ->
           ((body s k' i' j' : Z) <> 0 \/ (body s (k' + 1) i' j' : Z) <> 0) /\
           body_soil s' k' i' j' = body s (k' + 1) i' j' /\ listed l' k' i' j') /\
          (body_soil s' (k' + 1) i' j' : Z) - (body_soil s' k' i' j' : Z)
          = recorded l' k' i' j').
        { intros N.
          destruct (soil_set_other_layer _ _ _ _ _ _ _ k' i' j' Hset Hk Hk' N) as [-> ->].
          rewrite Hrec' by auto. split; auto.
          intros C. destruct (B1 C) as (? & ? & ?). auto. }
        destruct (Z.eq_dec k' k) as [->|]; [|apply Hoth; tauto].
        destruct (Z.eq_dec i' i) as [->|]; [|apply Hoth; tauto].
        destruct (Z.eq_dec j' j) as [->|]; [|apply Hoth; tauto].
        rewrite Hlo, Hhi. auto.
    - eapply Forall_impl; [|exact Hok]. intros e. apply rec_ok_dims. split; auto.
  Qed.

  (** When the whole column goes, both heights are reset. *)
  Lemma consistent_take s s' l nn e (h : Z) :
    0 < cz ->
    consistent near cz s l -> nth_error l nn = Some e ->
    0 <= h <= (e_h e : Z) -> aligned cz h ->
    soil_set s s' (e_ind e) (e_i e) (e_j e)
      (taken_lo s (e_ind e) (e_i e) (e_j e) h)
      (taken_hi s (e_ind e) (e_i e) (e_j e) h) ->
    consistent near cz s' (list_set l nn (rec_with_h e ((e_h e : Z) - h))) /\
    total_soil s' = total_soil s - h /\
    (soil_below s -> soil_below s').
  Proof.
    intros Hcz HI Hn Hh Ah Hset.
    pose proof HI as (N1 & N2 & H1 & H2).
    assert (Hok : rec_ok near cz s e)
      by (eapply Forall_forall; [exact H2|]; eapply nth_error_In; eauto).
    pose proof Hok as (Hk & Hin & Hpos & Aeh & Hnear).
    assert (Hg : on_grid s (e_i e) (e_j e)) by (unfold inside, on_grid in *; lia).
    set (k := e_ind e) in *. set (i := e_i e) in *. set (j := e_j e) in *.
    destruct (H1 i j Hg) as ((_ & A1) & _ & A3).
    destruct (A3 k Hk) as [B1 B2].
    pose proof (recorded_in l nn e (rec_ok_nonneg _ _ H2) Hn) as Hle.
    fold k i j in Hle.
    assert (Hk4 : 0 <= k < 4 /\ 0 <= k + 1 < 4) by (unfold layer in Hk; lia).
    destruct (A1 k) as [_ Abs]; [lia|]. destruct (A1 (k + 1)) as [_ Abs1]; [lia|].
    assert (M : matches e k i j = true) by (apply matches_spec; auto).
    unfold taken_lo, taken_hi in Hset.
    destruct (Z.ltb_spec h (soil_height s k i j)) as [L|L].
    - split; [|split].
      + eapply consistent_soil_set; eauto.
        * apply aligned_sub; auto.
        * intros _. destruct B1 as (C1 & C2 & C3).
          { unfold soil_on, soil_height in *. cbn in *. lia. }
          split; [auto|]. split; [auto|]. apply listed_list_set; auto.
        * rewrite recorded_list_set by auto. rewrite M.
          unfold soil_height in B2. cbn in *. lia.
        * intros k' i' j' N. rewrite recorded_list_set by auto.
          destruct (matches e k' i' j') eqn:M'; [|lia].
          apply matches_spec in M'. exfalso. apply N.
          destruct M' as (<- & <- & <-). auto.
        * intros. apply listed_list_set; auto.
        * apply Forall_list_set; auto.
          split; [|split; [|split; [|split]]]; auto; cbn; [lia|].
          apply aligned_sub; auto.
      + erewrite soil_set_total by eauto. unfold soil_height. cbn in *. lia.
      + intros SB. eapply soil_set_soil_below; eauto.
        intros Hs Hb Hlt.
        assert (Hso : soil_on s k i j)
          by (unfold soil_on, soil_height in *; cbn in *; lia).
        specialize (SB i j k Hg Hk Hso Hb Hlt). cbn in *. lia.
    - split; [|split].
      + eapply consistent_soil_set; eauto.
        * apply aligned_0.
        * apply aligned_0.
        * lia.
        * rewrite recorded_list_set by auto. rewrite M. lia.
        * intros k' i' j' N. rewrite recorded_list_set by auto.
          destruct (matches e k' i' j') eqn:M'; [|lia].
          apply matches_spec in M'. exfalso. apply N.
          destruct M' as (<- & <- & <-). auto.
        * intros. apply listed_list_set; auto.
        * apply Forall_list_set; auto.
          split; [|split; [|split; [|split]]]; auto; cbn; [lia|].
          apply aligned_sub; auto.
      + erewrite soil_set_total by eauto. lia.
      + intros SB. eapply soil_set_soil_below; eauto. lia.
  Qed.

  Lemma column_top_height (s : sim) l k i j :
    consistent near cz s l -> on_grid s i j -> layer k -> body_at s k i j ->
    column_top s k i j = body s (k + 1) i j + soil_height s k i j.
  Proof.
    intros (_ & _ & H1 & _) Hg Hk Hb. unfold column_top.
    destruct (soil_present s k i j) eqn:E.
    - apply soil_present_spec in E. destruct (H1 i j Hg) as (_ & _ & A3).
      destruct (A3 k Hk) as [B1 _]. destruct (B1 E) as (_ & C & _).
      unfold soil_height. rewrite C. cbn. lia.
    - apply soil_present_false in E as [E1 E2].
      unfold soil_height. rewrite E1, E2. cbn. lia.
  Qed.

  Lemma consistent_put s s' l e :
    consistent near cz s l -> rec_ok near cz s e ->
    body_at s (e_ind e) (e_i e) (e_j e) ->
    soil_set s s' (e_ind e) (e_i e) (e_j e)
      (body s (e_ind e + 1) (e_i e) (e_j e))
      (column_top s (e_ind e) (e_i e) (e_j e) + (e_h e : Z)) ->
    consistent near cz s' (l ++ [e]) /\
    total_soil s' = total_soil s + (e_h e : Z) /\
    (soil_below s ->
     (body_at s (2 - e_ind e) (e_i e) (e_j e) ->
      (body s (e_ind e) (e_i e) (e_j e) : Z) < body s (2 - e_ind e) (e_i e) (e_j e) ->
      column_top s (e_ind e) (e_i e) (e_j e) + (e_h e : Z)
      <= body s (2 - e_ind e) (e_i e) (e_j e)) -> soil_below s').
  Proof.
    intros HI Hok Hb Hset. pose proof HI as (N1 & N2 & H1 & H2).
    pose proof Hok as (Hk & Hin & Hpos & Aeh & Hnear).
    assert (Hg : on_grid s (e_i e) (e_j e)) by (unfold inside, on_grid in *; lia).
    set (k := e_ind e) in *. set (i := e_i e) in *. set (j := e_j e) in *.
    destruct (H1 i j Hg) as ((_ & A1) & _ & A3).
    destruct (A3 k Hk) as [B1 B2].
    assert (Hk4 : 0 <= k < 4 /\ 0 <= k + 1 < 4) by (unfold layer in Hk; lia).
    destruct (A1 k) as [Ab Abs]; [lia|]. destruct (A1 (k + 1)) as [Ab1 Abs1]; [lia|].
    assert (M : matches e k i j = true) by (apply matches_spec; auto).
    pose proof (column_top_height s l k i j HI Hg Hk Hb) as HT.
    split; [|split].
    - eapply consistent_soil_set; eauto.
      + apply aligned_add; auto. unfold column_top.
        destruct (soil_present s k i j); auto.
      + intros _. split; [auto|]. split; [auto|].
        exists e. rewrite in_app_iff. cbn. auto.
      + rewrite recorded_app. cbn [recorded]. rewrite M.
        rewrite <- B2. cbn in *. lia.
      + intros k' i' j' N. rewrite recorded_app. cbn [recorded].
        destruct (matches e k' i' j') eqn:M'; [|lia].
        apply matches_spec in M'. exfalso. apply N.
        destruct M' as (<- & <- & <-). auto.
      + intros. apply listed_app_l; auto.
      + apply Forall_app. auto.
    - erewrite soil_set_total by eauto. cbn in *. lia.
    - intros SB Hc. eapply soil_set_soil_below; eauto.
  Qed.

  Lemma consistent_terrain s s' l i j v :
    consistent near cz s l -> on_grid s i j -> aligned cz v ->
    terrain_set s s' i j v ->
    consistent near cz s' l /\
    total_soil s' = total_soil s + (v - (terrain s i j : Z)) /\
    (soil_below s -> soil_below s') /\
    (terrain_below s ->
     (forall k, layer k -> body_at s k i j -> v <= (body s k i j : Z)) ->
     terrain_below s').
  Proof.
    intros (N1 & N2 & H1 & H2) Hg Av ((E1 & E2) & Hb & Hs & Hv & Ho).
    split; [|split; [|split]].
    - split; [lia|]. split; [lia|]. split.
      + intros i' j' Hg'. unfold on_grid in Hg'. rewrite E1, E2 in Hg'.
        destruct (H1 i' j' Hg') as (A1 & A2 & A3). split; [|split].
        * destruct A1 as [B1 B2]. split.
          -- destruct (Z.eq_dec i' i) as [->|]; [|rewrite Ho by tauto; auto].
             destruct (Z.eq_dec j' j) as [->|]; [|rewrite Ho by tauto; auto].
             rewrite Hv. auto.
          -- intros k Hk. rewrite Hb, Hs. auto.
        * eapply cell_body_same; eauto. split; auto.
        * eapply cell_soil_same; eauto.
      + eapply Forall_impl; [|exact H2]. intros e. apply rec_ok_dims. split; auto.
    - unfold total_soil. rewrite E1, E2. destruct Hg.
      rewrite (sum2_change1 (nx s) (ny s) (soil_at s') (soil_at s) i j); auto.
      + f_equal. unfold soil_at, soil_height. rewrite Hv, !Hs. lia.
      + intros i' j' _ _ N. unfold soil_at, soil_height. rewrite !Hs.
        rewrite Ho; auto. intros [-> ->]; auto.
    - intros H i' j' k. specialize (H i' j' k).
      unfold on_grid, body_at, soil_on in *. rewrite E1, E2, !Hs, !Hb. auto.
    - intros H Hc i' j' k. specialize (H i' j' k).
      unfold on_grid, body_at in *. rewrite E1, E2, !Hb.
      destruct (Z.eq_dec i' i) as [->|]; [|rewrite Ho by tauto; auto].
      destruct (Z.eq_dec j' j) as [->|]; [|rewrite Ho by tauto; auto].
      rewrite Hv. auto.
  Qed.

End InvBase.
