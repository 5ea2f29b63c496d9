(** Names and contents of the output files. *)
From Coq Require Import ZArith NArith List Bool Ascii String Lia.
From Verif Require Import Outcome Base Num State ModelUtils Flt ModelTypes ModelGeometry ModelFiles.
Import ListNotations.
Open Scope string_scope.

(** * Strings *)
Fixpoint has_char (c : ascii) (s : string) : bool :=
  match s with
  | "" => false
  | String a s' => (a =? c)%char || has_char c s'
  end.

Lemma append_nil : forall s, s ++ "" = s.
Proof. induction s as [|a s IH]; cbn; [auto|rewrite IH; auto]. Qed.
Lemma append_assoc' : forall a b c : string, (a ++ b) ++ c = a ++ (b ++ c).
Proof. induction a as [|x a IH]; intros; cbn; [auto|rewrite IH; auto]. Qed.
Lemma append_cancel : forall a b c : string, a ++ b = a ++ c -> b = c.
Proof. induction a as [|x a IH]; cbn; intros b c H; [auto|injection H; auto]. Qed.
Lemma append_split : forall a a' b b' : string, String.length a = String.length a' ->
  a ++ b = a' ++ b' -> a = a' /\ b = b'.
Proof.
  induction a as [|x a IH]; destruct a' as [|x' a']; cbn; intros b b' L H; try discriminate; auto.
  injection H as -> H. injection L as L. destruct (IH a' b b' L H) as [-> ->]. auto.
Qed.
Lemma append_length : forall a b, String.length (a ++ b) = (String.length a + String.length b)%nat.
Proof. induction a as [|x a IH]; cbn; intros; [auto|rewrite IH; auto]. Qed.
Lemma has_char_app : forall c a b, has_char c (a ++ b) = has_char c a || has_char c b.
Proof. induction a as [|x a IH]; cbn; intros; [auto|rewrite IH, orb_assoc; auto]. Qed.

Lemma substring_prefix : forall a b, substring 0 (String.length a) (a ++ b) = a.
Proof. induction a as [|x a IH]; cbn; intros; [destruct b; auto|rewrite IH; auto]. Qed.
Lemma substring_all : forall b n, (String.length b <= n)%nat -> substring 0 n b = b.
Proof.
  induction b as [|x b IH]; intros [|n] H; cbn in *; auto; try lia. rewrite IH by lia; auto.
Qed.
Lemma substring_suffix : forall a b n, (String.length b <= n)%nat ->
  substring (String.length a) n (a ++ b) = b.
Proof.
  induction a as [|x a IH]; cbn; intros b n H; [apply substring_all; auto|]. apply IH; auto.
Qed.

Lemma last_none : forall c b, has_char c b = false -> find_last_of c b = None.
Proof.
  induction b as [|x b IH]; cbn; intros H; auto. apply orb_false_iff in H as [H1 H2].
  rewrite IH, H1 by auto. auto.
Qed.
Lemma last_app : forall c a b, has_char c b = false ->
  find_last_of c (a ++ String c b) = Some (String.length a).
Proof.
  induction a as [|x a IH]; cbn; intros b H.
  - rewrite last_none, Ascii.eqb_refl by auto; auto.
  - rewrite IH by auto; auto.
Qed.
Lemma before_last_app : forall c a b, has_char c b = false -> before_last c (a ++ String c b) = a.
Proof. intros. unfold before_last. rewrite last_app by auto. apply substring_prefix. Qed.
Lemma after_last_app : forall c a b, has_char c b = false -> after_last c (a ++ String c b) = b.
Proof.
  intros c a b H. unfold after_last. rewrite last_app by auto.
  replace (a ++ String c b) with ((a ++ String c "") ++ b) by (rewrite append_assoc'; auto).
  replace (S (String.length a)) with (String.length (a ++ String c "")) by
    (rewrite append_length; cbn; lia).
  apply substring_suffix. rewrite !append_length; lia.
Qed.

(** * Numbers *)
(** Value of a string of decimal digits. *)
Definition digit_value (a : ascii) : option N :=
  let n := N_of_ascii a in if ((48 <=? n) && (n <=? 57))%N then Some (n - 48)%N else None.
Fixpoint value (acc : N) (s : string) : option N :=
  match s with
  | "" => Some acc
  | String a s' =>
      match digit_value a with Some d => value (10 * acc + d) s' | None => None end
  end.
Definition number_good (n : N) : bool :=
  (String.length (number n) =? 5)%nat &&
  match value 0 (number n) with Some m => (m =? n)%N | None => false end.
Fixpoint all_from (f : N -> bool) (k : nat) (n : N) : bool :=
  match k with O => true | S k' => f n && all_from f k' (n + 1) end.
Lemma all_from_spec : forall f k n, all_from f k n = true ->
  forall m, (n <= m < n + N.of_nat k)%N -> f m = true.
Proof.
  induction k as [|k IH]; intros n H m M; cbn in H; [lia|].
  apply andb_true_iff in H as [H1 H2]. destruct (N.eq_dec m n) as [->|D]; auto.
  apply (IH (n + 1)%N); auto. lia.
Qed.
Lemma numbers_good : all_from number_good (N.to_nat 100000) 0 = true.
Proof. vm_cast_no_check (@eq_refl bool true). Qed.
Lemma number_spec : forall n, (n < 100000)%N ->
  String.length (number n) = 5%nat /\ value 0 (number n) = Some n.
Proof.
  intros n H. pose proof (all_from_spec _ _ _ numbers_good n ltac:(lia)) as G.
  unfold number_good in G. apply andb_true_iff in G as [G1 G2].
  apply Nat.eqb_eq in G1. destruct (value 0 (number n)) as [m|]; [|discriminate].
  apply N.eqb_eq in G2 as ->. auto.
Qed.
Lemma value_digits : forall c s acc n, digit_value c = None -> value acc s = Some n ->
  has_char c s = false.
Proof.
  induction s as [|a s IH]; cbn; intros acc n D H; auto.
  destruct (digit_value a) as [d|] eqn:E; [|discriminate].
  apply orb_false_iff; split; [|eapply IH; eauto].
  apply Ascii.eqb_neq. intros ->. congruence.
Qed.
Lemma number_no : forall n c, (n < 100000)%N -> digit_value c = None -> has_char c (number n) = false.
Proof. intros n c H D. destruct (number_spec n H) as [_ V]. eapply value_digits; eauto. Qed.
Lemma number_inj : forall n m, (n < 100000)%N -> (m < 100000)%N -> number n = number m -> n = m.
Proof.
  intros n m N M E. destruct (number_spec n N) as [_ V1]. destruct (number_spec m M) as [_ V2].
  rewrite E in V1. congruence.
Qed.

(** * Names *)
Lemma file_name_inj : forall path stem n m, (n < 100000)%N -> (m < 100000)%N ->
  file_name path stem n = file_name path stem m -> n = m.
Proof.
  intros path stem n m N M E. unfold file_name in E.
  apply append_cancel in E. apply append_cancel in E. apply append_cancel in E.
  apply append_split in E as [E _]; [apply number_inj; auto|].
  destruct (number_spec n N) as [-> _]. destruct (number_spec m M) as [-> _]. auto.
Qed.
Lemma file_name_stem : forall path n m a a' s s', a <> a' ->
  file_name path (String a s) n <> file_name path (String a' s') m.
Proof. intros path n m a a' s s' D E. apply append_cancel in E. injection E; auto. Qed.
Lemma file_name_length : forall path stem n, (n < 100000)%N ->
  String.length (file_name path stem n) = (String.length path + String.length stem + 10)%nat.
Proof.
  intros path stem n H. unfold file_name. rewrite !append_length.
  destruct (number_spec n H) as [-> _]. cbn; lia.
Qed.
Lemma body_soil_name_spec : forall src n, (n < 100000)%N ->
  body_soil_name (file_name (results_dir src) "terrain" n) =
  file_name (results_dir src) "body_soil" n.
Proof.
  intros src n H. unfold body_soil_name, file_name, results_dir.
  set (d := before_last "/" src).
  assert (B : before_last "/" ((d ++ "/../results/") ++ "terrain" ++ "_" ++ number n ++ ".csv") =
    d ++ "/../results").
  { replace ((d ++ "/../results/") ++ "terrain" ++ "_" ++ number n ++ ".csv")
      with ((d ++ "/../results") ++ String "/" ("terrain_" ++ number n ++ ".csv"))
      by (rewrite !append_assoc'; auto).
    apply before_last_app. rewrite !has_char_app, number_no; auto. }
  assert (A : after_last "_" ((d ++ "/../results/") ++ "terrain" ++ "_" ++ number n ++ ".csv") =
    number n ++ ".csv").
  { replace ((d ++ "/../results/") ++ "terrain" ++ "_" ++ number n ++ ".csv")
      with ((d ++ "/../results/terrain") ++ String "_" (number n ++ ".csv"))
      by (rewrite !append_assoc'; auto).
    apply after_last_app. rewrite !has_char_app, number_no; auto. }
  rewrite A, B, !append_assoc'. auto.
Qed.

(** * The search *)
Lemma next_name_spec : forall fs path stem k n cur,
  (exists m, (n <= m < n + N.of_nat k)%N /\ next_name fs path stem k n cur = file_name path stem m /\
     fs (file_name path stem m) = None /\
     forall m', (n <= m' < m)%N -> fs (file_name path stem m') <> None) \/
  ((forall m, (n <= m < n + N.of_nat k)%N -> fs (file_name path stem m) <> None) /\
   next_name fs path stem k n cur =
     match k with O => cur | S _ => file_name path stem (n + N.of_nat k - 1) end).
Proof.
  induction k as [|k IH]; intros n cur; cbn [next_name].
  - right. split; [intros; lia|auto].
  - unfold exists_file. destruct (fs (file_name path stem n)) as [t|] eqn:E.
    + destruct (IH (n + 1)%N (file_name path stem n)) as [(m & M & Q & F & L)|[F Q]].
      * left. exists m. split; [lia|]. split; auto. split; auto.
        intros m' M'. destruct (N.eq_dec m' n) as [->|D]; [congruence|apply L; lia].
      * right. split.
        -- intros m M. destruct (N.eq_dec m n) as [->|D]; [congruence|apply F; lia].
        -- rewrite Q. destruct k; f_equal; lia.
    + left. exists n. split; [lia|]. split; auto. split; auto. intros; lia.
Qed.

(** The name is the first free one; the last one if there is none. *)
Definition first_free (fs : files) (path stem : string) (n : N) : Prop :=
  (n < 100000)%N /\
  ((fs (file_name path stem n) = None /\
    forall m, (m < n)%N -> fs (file_name path stem m) <> None) \/
   (n = 99999%N /\ forall m, (m < 100000)%N -> fs (file_name path stem m) <> None)).
Lemma free_name_spec : forall fs path stem, exists n,
  first_free fs path stem n /\ free_name fs path stem = file_name path stem n.
Proof.
  intros fs path stem. unfold free_name, first_free.
  assert (B : N.of_nat (N.to_nat 100000) = 100000%N) by apply N2Nat.id.
  destruct (next_name_spec fs path stem (N.to_nat 100000) 0 "") as [(m & M & Q & F & L)|[F Q]];
    rewrite Q, ?B in *.
  - exists m. split; auto. split; [lia|]. left. split; auto. intros; apply L; lia.
  - exists 99999%N. split.
    + split; [lia|]. right. split; auto. intros; apply F; lia.
    + destruct (N.to_nat 100000) eqn:E; [lia|]. f_equal; lia.
Qed.
Lemma first_free_unique : forall fs path stem n m,
  first_free fs path stem n -> first_free fs path stem m -> n = m.
Proof.
  intros fs path stem n m (N & A) (M & B).
  destruct A as [[A1 A2]|[-> A]]; destruct B as [[B1 B2]|[-> B]]; auto.
  - destruct (N.lt_trichotomy n m) as [L|[L|L]]; auto; exfalso.
    + apply (B2 n L); auto.
    + apply (A2 m L); auto.
  - exfalso. apply (B n N); auto.
  - exfalso. apply (A m M); auto.
Qed.

Lemma put_same : forall fs f t, put fs f t f = Some t.
Proof. intros. unfold put. rewrite String.eqb_refl. auto. Qed.
Lemma put_other : forall fs f t f', f' <> f -> put fs f t f' = fs f'.
Proof. intros. unfold put. apply String.eqb_neq in H. rewrite H. auto. Qed.

(** * Reading back *)
Fixpoint split_at (c : ascii) (s : string) : list string :=
  match s with
  | "" => [""]
  | String a s' =>
      if (a =? c)%char then "" :: split_at c s'
      else match split_at c s' with
           | h :: t => String a h :: t
           | [] => [String a ""]
           end
  end.
(** The lines of a text, each cut at the commas. *)
Definition csv (t : string) : list (list string) :=
  map (split_at ","%char) (split_at (ascii_of_N 10) t).

Lemma split_none : forall c s, has_char c s = false -> split_at c s = [s].
Proof.
  induction s as [|a s IH]; cbn; intros H; auto. apply orb_false_iff in H as [H1 H2].
  rewrite H1, IH by auto. auto.
Qed.
Lemma split_app : forall c a b, has_char c a = false ->
  split_at c (a ++ String c b) = a :: split_at c b.
Proof.
  induction a as [|x a IH]; cbn; intros b H.
  - rewrite Ascii.eqb_refl. auto.
  - apply orb_false_iff in H as [H1 H2]. rewrite H1, IH by auto. auto.
Qed.

(** A field: no comma, no end of line. *)
Definition plain (s : string) : bool :=
  negb (has_char ","%char s) && negb (has_char (ascii_of_N 10) s).
Lemma csv_row : forall x y z t, plain x = true -> plain y = true -> plain z = true ->
  csv (row x y z ++ t) = [x; y; z] :: csv t.
Proof.
  intros x y z t X Y Z. unfold plain in *.
  apply andb_true_iff in X as [X1 X2]. apply andb_true_iff in Y as [Y1 Y2].
  apply andb_true_iff in Z as [Z1 Z2]. apply negb_true_iff in X1, X2, Y1, Y2, Z1, Z2.
  unfold csv, row.
  replace ((x ++ "," ++ y ++ "," ++ z ++ newline) ++ t)
    with ((x ++ "," ++ y ++ "," ++ z) ++ String (ascii_of_N 10) t)
    by (rewrite !append_assoc'; auto).
  rewrite split_app by (rewrite !has_char_app, X2, Y2, Z2; auto).
  cbn [map]. f_equal.
  change (x ++ "," ++ y ++ "," ++ z) with (x ++ String "," (y ++ String "," z)).
  rewrite !split_app, split_none by auto. auto.
Qed.
Lemma csv_rows : forall {X} (f : X -> string * string * string) l,
  (forall x, In x l -> let '(a, b, c) := f x in
     plain a = true /\ plain b = true /\ plain c = true) ->
  csv (text (map (fun x => let '(a, b, c) := f x in row a b c) l)) =
  (map (fun x => let '(a, b, c) := f x in [a; b; c]) l ++ [[""]])%list.
Proof.
  induction l as [|x l IH]; intros H; [reflexivity|].
  cbn [map text fold_right]. pose proof (H x (or_introl eq_refl)) as P.
  destruct (f x) as [[a b] c]. destruct P as (A & B & C).
  rewrite csv_row by auto. cbn [List.app]. f_equal. apply IH. intros; apply H; right; auto.
Qed.
Lemma csv_header : forall t, csv (header ++ t) = ["x"; "y"; "z"] :: csv t.
Proof. intros t. apply (csv_row "x" "y" "z"); reflexivity. Qed.
