(** General lemmas: outcomes, loops, lists, permutations, integer sums. *)
From Coq Require Import ZArith List Bool Lia Permutation.
From Verif Require Import Outcome Num State.
Import ListNotations.
Open Scope Z_scope.

#[global] Arguments Z.mul : simpl never.
#[global] Arguments Z.add : simpl never.
#[global] Arguments Z.sub : simpl never.

(** ** Outcomes *)

(** The call returns, and its result satisfies [Q]. *)
Definition returns {A} (m : outcome A) (Q : A -> Prop) : Prop :=
  match m with Ok a => Q a | _ => False end.

Lemma returns_ok {A} (m : outcome A) (Q : A -> Prop) :
  returns m Q <-> exists a, m = Ok a /\ Q a.
Proof.
  destruct m; simpl; split; try (intros []; tauto); intros H.
  - eauto.
  - destruct H as (? & [= <-] & ?); auto.
  - destruct H as (? & ? & _); discriminate.
  - destruct H as (? & ? & _); discriminate.
Qed.

Lemma returns_bind {A B} (m : outcome A) (k : A -> outcome B) P Q :
  returns m P -> (forall a, P a -> returns (k a) Q) -> returns (bind m k) Q.
Proof. destruct m; simpl; try tauto. intros; auto. Qed.

Lemma returns_weaken {A} (m : outcome A) (P Q : A -> Prop) :
  returns m P -> (forall a, P a -> Q a) -> returns m Q.
Proof. destruct m; simpl; auto. Qed.

Lemma returns_guard {A} b (m : outcome A) Q :
  b = true -> returns m Q -> returns (guard b m) Q.
Proof. intros ->; auto. Qed.

(** If the call returns at all, its result satisfies [Q]. *)
Definition partial {A} (m : outcome A) (Q : A -> Prop) : Prop :=
  match m with Ok a => Q a | _ => True end.

Lemma partial_bind {A B} (m : outcome A) (k : A -> outcome B) P Q :
  partial m P -> (forall a, P a -> partial (k a) Q) -> partial (bind m k) Q.
Proof. destruct m; simpl; auto. Qed.

Lemma partial_guard {A} b (m : outcome A) Q :
  (b = true -> partial m Q) -> partial (guard b m) Q.
Proof. destruct b; simpl; auto. Qed.

Lemma partial_weaken {A} (m : outcome A) (P Q : A -> Prop) :
  partial m P -> (forall a, P a -> Q a) -> partial m Q.
Proof. destruct m; simpl; auto. Qed.

Lemma returns_partial {A} (m : outcome A) Q : returns m Q -> partial m Q.
Proof. destruct m; simpl; tauto. Qed.

Lemma partial_ok {A} (m : outcome A) Q a : partial m Q -> m = Ok a -> Q a.
Proof. intros H ->; exact H. Qed.

Lemma bind_ok {A B} (m : outcome A) (k : A -> outcome B) b :
  bind m k = Ok b -> exists a, m = Ok a /\ k a = Ok b.
Proof. destruct m; simpl; try discriminate; eauto. Qed.

Lemma guard_ok {A} b (m : outcome A) a :
  guard b m = Ok a -> b = true /\ m = Ok a.
Proof. destruct b; simpl; try discriminate; auto. Qed.

(** ** Loops *)

Lemma for_each_returns {X S} (f : X -> S -> outcome S) (I : S -> Prop) l :
  (forall x s, In x l -> I s -> returns (f x s) I) ->
  forall s, I s -> returns (for_each l f s) I.
Proof.
  induction l as [|x l IH]; simpl; intros Hf s Hs; auto.
  eapply returns_bind; [apply Hf; auto|]. intros; apply IH; auto.
Qed.

(** With an invariant that may depend on what is left to do. *)
Lemma for_each_returns_rest {X S} (f : X -> S -> outcome S)
  (I : list X -> S -> Prop) l :
  (forall x r s, I (x :: r) s -> returns (f x s) (I r)) ->
  forall s, I l s -> returns (for_each l f s) (I []).
Proof.
  induction l as [|x l IH]; simpl; intros Hf s Hs; auto.
  eapply returns_bind; [apply Hf; eauto|]. intros; apply IH; auto.
Qed.

Lemma for_each_partial {X S} (f : X -> S -> outcome S) (I : S -> Prop) l :
  (forall x s, In x l -> I s -> partial (f x s) I) ->
  forall s, I s -> partial (for_each l f s) I.
Proof.
  induction l as [|x l IH]; simpl; intros Hf s Hs; auto.
  eapply partial_bind; [apply Hf; auto|]. intros; apply IH; auto.
Qed.

Lemma for_each_app {X S} (f : X -> S -> outcome S) l1 l2 s :
  for_each (l1 ++ l2) f s = bind (for_each l1 f s) (for_each l2 f).
Proof.
  revert s. induction l1 as [|x l1 IH]; intros s; simpl; auto.
  destruct (f x s); simpl; auto.
Qed.

(** ** Ranges *)

Lemma in_zrange lo hi x : In x (zrange lo hi) <-> lo <= x < hi.
Proof.
  unfold zrange. rewrite in_map_iff. split.
  - intros (k & <- & H). apply in_seq in H. lia.
  - intros H. exists (Z.to_nat (x - lo)). split; [lia|]. apply in_seq. lia.
Qed.

Lemma NoDup_zrange lo hi : NoDup (zrange lo hi).
Proof.
  unfold zrange. apply FinFun.Injective_map_NoDup; [|apply seq_NoDup].
  intros a b; lia.
Qed.

Lemma in_area_cells a i j : In (i, j) (area_cells a) <-> in_area a i j.
Proof.
  unfold area_cells, in_area. rewrite in_flat_map. split.
  - intros (x & Hx & H). apply in_map_iff in H as (y & [= -> ->] & Hy).
    apply in_zrange in Hx, Hy. lia.
  - intros [Hi Hj]. exists i. split; [apply in_zrange; auto|].
    apply in_map. apply in_zrange; auto.
Qed.

(** ** Lists *)

Lemma list_set_length {X} (l : list X) n x : length (list_set l n x) = length l.
Proof. revert n; induction l; destruct n; simpl; auto. Qed.

Lemma nth_error_list_set {X} (l : list X) n x m :
  nth_error (list_set l n x) m =
  if Nat.eqb m n then (if Nat.ltb n (length l) then Some x else None)
  else nth_error l m.
Proof.
  revert n m. induction l as [|y l IH]; intros [|n] [|m]; simpl; auto.
  - destruct (Nat.eqb m n); auto.
  - rewrite IH. reflexivity.
Qed.

Lemma list_set_split {X} (l : list X) n x y :
  nth_error l n = Some y ->
  exists l1 l2, l = l1 ++ y :: l2 /\ list_set l n x = l1 ++ x :: l2 /\
                length l1 = n.
Proof.
  revert n. induction l as [|z l IH]; intros [|n]; simpl; try discriminate.
  - intros [= ->]. exists [], l. auto.
  - intros H. destruct (IH n H) as (l1 & l2 & -> & E & L).
    exists (z :: l1), l2. simpl. rewrite E. auto.
Qed.

Lemma list_set_app_l {X} (l l' : list X) n x :
  (n < length l)%nat -> list_set (l ++ l') n x = list_set l n x ++ l'.
Proof.
  revert n. induction l as [|y l IH]; intros [|n]; simpl; intros; try lia; auto.
  rewrite IH by lia. reflexivity.
Qed.

Lemma Forall_list_set {X} (P : X -> Prop) l n x :
  Forall P l -> P x -> Forall P (list_set l n x).
Proof.
  intros H Hx. revert n. induction H; intros [|n]; simpl; auto.
Qed.

(** ** Shuffles *)

Lemma swap_permutation {X} (l : list X) a b : Permutation (swap l a b) l.
Proof.
  unfold swap.
  destruct (nth_error l a) as [x|] eqn:Ha; auto.
  destruct (nth_error l b) as [y|] eqn:Hb; auto.
  destruct (Nat.eq_dec a b) as [->|Hab].
  - rewrite Ha in Hb. injection Hb as <-.
    destruct (list_set_split l b x x Ha) as (l1 & l2 & E1 & E2 & E3).
    rewrite E2, <- E1.
    destruct (list_set_split l b x x Ha) as (m1 & m2 & F1 & F2 & F3).
    rewrite F2, <- F1. auto.
  - destruct (list_set_split l a y x Ha) as (l1 & l2 & E1 & E2 & E3).
    rewrite E2.
    assert (Hb' : nth_error (l1 ++ y :: l2) b = Some y).
    { rewrite <- E2, nth_error_list_set.
      destruct (Nat.eqb b a) eqn:E; [apply Nat.eqb_eq in E; congruence|auto]. }
    destruct (list_set_split _ b x y Hb') as (m1 & m2 & F1 & F2 & F3).
    rewrite F2.
    assert (Permutation (x :: l1 ++ y :: l2) (y :: l)).
    { rewrite E1. rewrite <- Permutation_middle.
      rewrite perm_swap. constructor. apply Permutation_middle. }
    assert (H2 : Permutation (y :: m1 ++ x :: m2) (x :: l1 ++ y :: l2)).
    { rewrite F1. rewrite <- Permutation_middle.
      rewrite perm_swap. constructor. apply Permutation_middle. }
    apply (Permutation_cons_inv (a := y)). rewrite H2. auto.
Qed.

Lemma shuffle_from_permutation {X} aa (l : list X) r :
  Permutation (fst (shuffle_from aa l r)) l.
Proof.
  revert l r. induction aa as [|aa IH]; intros l r; simpl; auto.
  rewrite IH. apply swap_permutation.
Qed.

Lemma shuffle_permutation {X} (l : list X) r : Permutation (fst (shuffle l r)) l.
Proof. apply shuffle_from_permutation. Qed.

Lemma shuffle_eq {X} (l : list X) r l' r' :
  shuffle l r = (l', r') -> Permutation l' l.
Proof. intros H. rewrite <- (shuffle_permutation l r), H. auto. Qed.

(** ** Sums *)

Fixpoint sum_to (n : nat) (f : Z -> Z) : Z :=
  match n with
  | O => 0
  | S m => sum_to m f + f (Z.of_nat m)
  end.

Lemma sum_to_ext n f h :
  (forall x, 0 <= x < Z.of_nat n -> f x = h x) -> sum_to n f = sum_to n h.
Proof.
  induction n as [|n IH]; simpl sum_to; intros H; auto.
  rewrite IH by (intros; apply H; lia). rewrite H by lia. reflexivity.
Qed.

Lemma sum_to_add n f h :
  sum_to n (fun x => f x + h x) = sum_to n f + sum_to n h.
Proof. induction n as [|n IH]; simpl sum_to; lia. Qed.

Lemma sum_to_zero n : sum_to n (fun _ => 0) = 0.
Proof. induction n as [|n IH]; simpl sum_to; lia. Qed.

Lemma sum_to_nonneg n f :
  (forall x, 0 <= x < Z.of_nat n -> 0 <= f x) -> 0 <= sum_to n f.
Proof.
  induction n as [|n IH]; simpl sum_to; intros H; [lia|].
  assert (0 <= sum_to n f) by (apply IH; intros; apply H; lia).
  assert (0 <= f (Z.of_nat n)) by (apply H; lia). lia.
Qed.

Lemma sum_to_single n x v :
  0 <= x < Z.of_nat n -> sum_to n (fun y => if y =? x then v else 0) = v.
Proof.
  induction n as [|n IH]; simpl sum_to; intros H; [lia|].
  destruct (Z.eqb_spec (Z.of_nat n) x) as [E|E].
  - rewrite (sum_to_ext _ _ (fun _ => 0)); [rewrite sum_to_zero; lia|].
    intros y Hy. destruct (Z.eqb_spec y x); lia.
  - rewrite IH by lia. lia.
Qed.

(** Sum over the cells of an [n] by [m] grid. *)
Definition sum2 (n m : Z) (f : Z -> Z -> Z) : Z :=
  sum_to (Z.to_nat n) (fun i => sum_to (Z.to_nat m) (fun j => f i j)).

Lemma sum2_ext n m f h :
  (forall i j, 0 <= i < n -> 0 <= j < m -> f i j = h i j) ->
  sum2 n m f = sum2 n m h.
Proof.
  intros H. apply sum_to_ext. intros i Hi. apply sum_to_ext. intros j Hj.
  apply H; lia.
Qed.

Lemma sum2_add n m f h :
  sum2 n m (fun i j => f i j + h i j) = sum2 n m f + sum2 n m h.
Proof.
  unfold sum2. rewrite <- sum_to_add. apply sum_to_ext. intros.
  apply sum_to_add.
Qed.

Lemma sum2_nonneg n m f :
  (forall i j, 0 <= i < n -> 0 <= j < m -> 0 <= f i j) -> 0 <= sum2 n m f.
Proof.
  intros H. apply sum_to_nonneg. intros i Hi. apply sum_to_nonneg.
  intros j Hj. apply H; lia.
Qed.

Lemma sum2_single n m i j v :
  0 <= i < n -> 0 <= j < m ->
  sum2 n m (fun i' j' => if (i' =? i) && (j' =? j) then v else 0) = v.
Proof.
  intros Hi Hj. unfold sum2.
  rewrite (sum_to_ext _ _ (fun i' => if i' =? i then v else 0)).
  - apply sum_to_single. lia.
  - intros i' _. destruct (i' =? i); simpl.
    + apply (sum_to_single (Z.to_nat m) j v). lia.
    + apply sum_to_zero.
Qed.

(** The sum changes by what changes at one cell. *)
Lemma sum2_change1 n m f h i j :
  0 <= i < n -> 0 <= j < m ->
  (forall i' j', 0 <= i' < n -> 0 <= j' < m -> (i', j') <> (i, j) ->
     f i' j' = h i' j') ->
  sum2 n m f = sum2 n m h + (f i j - h i j).
Proof.
  intros Hi Hj H.
  rewrite <- (sum2_single n m i j (f i j - h i j)) by auto.
  rewrite <- sum2_add. apply sum2_ext. intros i' j' Hi' Hj'.
  destruct (Z.eqb_spec i' i) as [->|]; simpl;
  [destruct (Z.eqb_spec j' j) as [->|]; simpl|].
  - lia.
  - rewrite H by congruence || auto. lia.
  - rewrite H by congruence || auto. lia.
Qed.

Lemma sum2_change2 n m f h i j ic jc :
  0 <= i < n -> 0 <= j < m -> 0 <= ic < n -> 0 <= jc < m ->
  (ic, jc) <> (i, j) ->
  (forall i' j', 0 <= i' < n -> 0 <= j' < m -> (i', j') <> (i, j) ->
     (i', j') <> (ic, jc) -> f i' j' = h i' j') ->
  sum2 n m f = sum2 n m h + (f i j - h i j) + (f ic jc - h ic jc).
Proof.
  intros Hi Hj Hic Hjc Hne H.
  set (mid := fun i' j' => if (i' =? i) && (j' =? j) then f i j else h i' j').
  rewrite (sum2_change1 n m f mid ic jc); auto.
  - rewrite (sum2_change1 n m mid h i j); auto.
    + unfold mid. rewrite !Z.eqb_refl. simpl.
      destruct (Z.eqb_spec ic i); simpl; [|lia].
      destruct (Z.eqb_spec jc j); simpl; [|lia]. congruence.
    + intros i' j' _ _ N. unfold mid.
      destruct (Z.eqb_spec i' i); simpl; auto.
      destruct (Z.eqb_spec j' j); simpl; auto. congruence.
  - intros i' j' Hi' Hj' N. unfold mid.
    destruct (Z.eqb_spec i' i) as [->|]; simpl;
    [destruct (Z.eqb_spec j' j) as [->|]; simpl|]; auto; apply H; congruence || auto.
Qed.
