(** What WriteSoil and WriteBody leave in the files. *)
From Coq Require Import ZArith NArith List Bool Ascii String Lia.
From Verif Require Import Outcome Base Num State Spec ModelUtils Flt ModelTypes ModelGeometry
  ModelFiles FilesProofs ModelStep Spec2.
Import ListNotations.
Open Scope string_scope.

(** * Cells in row-major order *)
Lemma zrange_length : forall n, List.length (zrange 0 n) = Z.to_nat n.
Proof. intros. unfold zrange. rewrite map_length, seq_length. f_equal. lia. Qed.
Lemma zrange_nth : forall n i, (0 <= i < n)%Z -> nth_error (zrange 0 n) (Z.to_nat i) = Some i.
Proof.
  intros n i H. unfold zrange. rewrite nth_error_map, nth_error_nth' with (d := O);
    [|rewrite seq_length; lia]. cbn. f_equal. rewrite seq_nth by lia. lia.
Qed.
Lemma nth_flat_map : forall X Y (f : X -> list Y) m l, (forall x, In x l -> List.length (f x) = m) ->
  forall a b x, nth_error l a = Some x -> (b < m)%nat ->
  nth_error (flat_map f l) (a * m + b) = nth_error (f x) b.
Proof.
  induction l as [|y l IH]; intros H a b x A B; [destruct a; discriminate|].
  cbn [flat_map]. pose proof (H y (or_introl eq_refl)) as Ly. destruct a as [|a].
  - injection A as ->. cbn. rewrite nth_error_app1; [auto|lia].
  - rewrite nth_error_app2 by (rewrite Ly; lia).
    replace (S a * m + b - List.length (f y))%nat with (a * m + b)%nat by (rewrite Ly; lia).
    apply IH; auto. intros; apply H; right; auto.
Qed.
Lemma length_flat_map : forall X Y (f : X -> list Y) m l, (forall x, In x l -> List.length (f x) = m) ->
  List.length (flat_map f l) = (List.length l * m)%nat.
Proof.
  induction l as [|y l IH]; intros H; cbn [flat_map List.length]; auto.
  rewrite app_length, IH, (H y (or_introl eq_refl)) by (intros; apply H; right; auto). lia.
Qed.
Section Cells.
  Context {A : Num}.
  Lemma cells_nth : forall (s : sim A) i j, (0 <= i < nx s)%Z -> (0 <= j < ny s)%Z ->
    nth_error (all_cells s) (Z.to_nat (i * ny s + j)) = Some (i, j).
  Proof.
    intros s i j I J. unfold all_cells, area_cells. cbn [x_lo x_hi y_lo y_hi].
    replace (Z.to_nat (i * ny s + j)) with (Z.to_nat i * Z.to_nat (ny s) + Z.to_nat j)%nat by lia.
    rewrite nth_flat_map with (m := Z.to_nat (ny s)) (x := i).
    - rewrite nth_error_map, zrange_nth by auto. auto.
    - intros. rewrite map_length, zrange_length. auto.
    - apply zrange_nth; auto.
    - lia.
  Qed.
  Lemma cells_length : forall s : sim A, List.length (all_cells s) = (Z.to_nat (nx s) * Z.to_nat (ny s))%nat.
  Proof.
    intros s. unfold all_cells, area_cells. cbn [x_lo x_hi y_lo y_hi].
    rewrite length_flat_map with (m := Z.to_nat (ny s)), zrange_length; auto.
    intros. rewrite map_length, zrange_length. auto.
  Qed.
  Lemma cells_in : forall (s : sim A) i j, In (i, j) (all_cells s) <->
    (0 <= i < nx s /\ 0 <= j < ny s)%Z.
  Proof.
    intros. unfold all_cells, area_cells. cbn [x_lo x_hi y_lo y_hi]. rewrite in_flat_map. split.
    - intros (i' & I & J). apply in_map_iff in J as (j' & E & J). injection E as -> ->.
      apply in_zrange in I, J. auto.
    - intros [I J]. exists i. split; [apply in_zrange; auto|]. apply in_map. apply in_zrange; auto.
  Qed.
End Cells.

Lemma nodup_flat_map : forall X Y (f : X -> list Y) l, NoDup l -> (forall x, NoDup (f x)) ->
  (forall x x' y, In y (f x) -> In y (f x') -> x = x') -> NoDup (flat_map f l).
Proof.
  induction l as [|x l IH]; intros N F D; cbn; [constructor|]. inversion N as [|? ? H1 H2]; subst.
  assert (G : NoDup (flat_map f l)) by auto.
  assert (Q : forall y, In y (f x) -> ~ In y (flat_map f l)).
  { intros y Y1 Y2. apply in_flat_map in Y2 as (x' & X' & Y2). rewrite (D x x' y Y1 Y2) in H1. auto. }
  clear IH. specialize (F x). induction (f x) as [|y t IHt]; cbn; auto. inversion F; subst.
  constructor.
  - rewrite in_app_iff. intros [|]; auto. apply (Q y); cbn; auto.
  - apply IHt; auto. intros z Z1. apply Q; cbn; auto.
Qed.
Lemma nodup_cells : forall {A : Num} (s : sim A), NoDup (all_cells s).
Proof.
  intros. apply nodup_flat_map; [apply NoDup_zrange| |].
  - intros x. apply FinFun.Injective_map_NoDup; [|apply NoDup_zrange]. intros a b E. congruence.
  - intros x x' y H H'. apply in_map_iff in H as (b & <- & _). apply in_map_iff in H' as (b' & E & _).
    congruence.
Qed.

Section Soil.
  Context {A : Num}.
  Variable P : printer A.
  Notation sim := (sim A).

  (** No comma and no end of line is printed inside a number. *)
  Definition plain_printer : Prop :=
    (forall v, plain (p_height P v) = true) /\ (forall i, plain (p_x P i) = true) /\
    (forall j, plain (p_y P j) = true) /\ plain (p_z0 P) = true.
  Hypothesis PP : plain_printer.

  Lemma terrain_csv : forall s : sim,
    csv (terrain_text P s) =
    ["x"; "y"; "z"] ::
    (map (fun c => [p_x P (fst c); p_y P (snd c); p_height P (terrain s (fst c) (snd c))])
       (all_cells s) ++ [[""]])%list.
  Proof.
    intros s. unfold terrain_text. rewrite csv_header. f_equal.
    destruct PP as (H1 & H2 & H3 & _).
    apply (csv_rows (fun c => (p_x P (fst c), p_y P (snd c), p_height P (terrain s (fst c) (snd c))))).
    intros. cbv iota beta. auto.
  Qed.
  Lemma terrain_rows : forall s : sim, (0 <= nx s)%Z -> (0 <= ny s)%Z ->
    let t := csv (terrain_text P s) in
    List.length t = Z.to_nat (nx s * ny s + 2) /\
    nth_error t 0 = Some ["x"; "y"; "z"] /\
    nth_error t (Z.to_nat (nx s * ny s + 1)) = Some [""] /\
    forall i j, (0 <= i < nx s)%Z -> (0 <= j < ny s)%Z ->
      nth_error t (Z.to_nat (i * ny s + j + 1)) = Some [p_x P i; p_y P j; p_height P (terrain s i j)].
  Proof.
    intros s X Y t. unfold t. rewrite terrain_csv.
    assert (B : (0 <= nx s * ny s)%Z) by nia.
    assert (L : List.length (all_cells s) = Z.to_nat (nx s * ny s)).
    { rewrite cells_length. rewrite Z2Nat.inj_mul by lia. auto. }
    split; [|split; [|split]].
    - cbn [List.length]. rewrite app_length, map_length, L. cbn. lia.
    - reflexivity.
    - replace (Z.to_nat (nx s * ny s + 1)) with (S (Z.to_nat (nx s * ny s))) by lia. cbn [nth_error].
      rewrite nth_error_app2; rewrite map_length, L; [|lia]. rewrite Nat.sub_diag. auto.
    - intros i j I J. assert (C : (0 <= i * ny s + j < nx s * ny s)%Z) by nia.
      replace (Z.to_nat (i * ny s + j + 1)) with (S (Z.to_nat (i * ny s + j))) by lia. cbn [nth_error].
      rewrite nth_error_app1 by (rewrite map_length, L; lia).
      rewrite nth_error_map, cells_nth by auto. auto.
  Qed.

  (** Soil is present in layer [k] of the cell. *)
  Definition column (s : sim) (k i j : Z) : Prop :=
    (0 <= i < nx s)%Z /\ (0 <= j < ny s)%Z /\ (k = 0%Z \/ k = 2%Z) /\
    (feqb (body_soil s k i j) f0 = false \/ feqb (body_soil s (k + 1) i j) f0 = false).
  Definition columns_of (s : sim) (c : Z * Z) : list (Z * Z * Z) :=
    ((if soil_present s 0 (fst c) (snd c) then [(0%Z, fst c, snd c)] else []) ++
     (if soil_present s 2 (fst c) (snd c) then [(2%Z, fst c, snd c)] else []))%list.
  Lemma soil_present_iff : forall (s : sim) k i j, soil_present s k i j = true <->
    feqb (body_soil s k i j) f0 = false \/ feqb (body_soil s (k + 1) i j) f0 = false.
  Proof.
    intros. unfold soil_present. rewrite orb_true_iff, !negb_true_iff. tauto.
  Qed.
  Lemma columns_iff : forall (s : sim) k i j,
    In (k, i, j) (flat_map (columns_of s) (all_cells s)) <-> column s k i j.
  Proof.
    intros s k i j. unfold column. rewrite in_flat_map. split.
    - intros ([i' j'] & C & H). apply cells_in in C. unfold columns_of in H. cbn [fst snd] in H.
      apply in_app_iff in H as [H|H].
      + destruct (soil_present s 0 i' j') eqn:E; [|destruct H]. destruct H as [H|[]].
        injection H as <- <- <-. apply soil_present_iff in E. intuition.
      + destruct (soil_present s 2 i' j') eqn:E; [|destruct H]. destruct H as [H|[]].
        injection H as <- <- <-. apply soil_present_iff in E. intuition.
    - intros (I & J & [->| ->] & H); exists (i, j); (split; [apply cells_in; auto|]);
        apply soil_present_iff in H; unfold columns_of; cbn [fst snd]; rewrite H; apply in_app_iff;
        cbn; auto.
  Qed.
  Lemma columns_nodup : forall s : sim, NoDup (flat_map (columns_of s) (all_cells s)).
  Proof.
    intros s. apply nodup_flat_map; [apply nodup_cells| |].
    - intros [i j]. unfold columns_of. cbn [fst snd].
      destruct (soil_present s 0 i j), (soil_present s 2 i j); cbn; repeat constructor; cbn;
        intuition congruence.
    - intros [i j] [i' j'] y. unfold columns_of. cbn [fst snd].
      destruct (soil_present s 0 i j), (soil_present s 2 i j), (soil_present s 0 i' j'),
        (soil_present s 2 i' j'); cbn; intros; intuition congruence.
  Qed.
  Lemma body_soil_csv : forall s : sim,
    exists l, NoDup l /\ (forall k i j, In (k, i, j) l <-> column s k i j) /\
    csv (body_soil_text P s) =
    ["x"; "y"; "z"] ::
    (match records s with
     | [] => [[p_x P 0; p_y P 0; p_z0 P]]
     | _ => map (fun c => let '(k, i, j) := c in
                  [p_x P i; p_y P j; p_height P (body_soil s (k + 1) i j)]) l
     end ++ [[""]])%list.
  Proof.
    intros s. exists (flat_map (columns_of s) (all_cells s)).
    split; [apply columns_nodup|]. split; [intros; apply columns_iff|].
    unfold body_soil_text. rewrite csv_header. f_equal. destruct PP as (H1 & H2 & H3 & H4).
    destruct (records s).
    - rewrite <- (append_nil (row _ _ _)). rewrite csv_row by auto. reflexivity.
    - replace (flat_map (body_soil_rows P s) (all_cells s)) with
        (map (fun x => let '(a, b, c) := (let '(k, i, j) := x in
                        (p_x P i, p_y P j, p_height P (body_soil s (k + 1) i j))) in row a b c)
           (flat_map (columns_of s) (all_cells s))).
      + rewrite csv_rows.
        * f_equal. apply map_ext. intros [[k i] j]. auto.
        * intros [[k i] j] _. auto.
      + induction (all_cells s) as [|[i j] t IH]; cbn; auto. rewrite map_app, IH. f_equal.
        unfold columns_of. cbn [fst snd]. rewrite map_app. f_equal.
        * destruct (soil_present s 0 i j); auto.
        * destruct (soil_present s 2 i j); auto.
  Qed.
End Soil.

(** * WriteSoil *)
Section Write.
  Context {A : Num}.
  Variable P : printer A.

  Lemma write_soil_spec : forall src (s : sim A) fs, exists n,
    first_free fs (results_dir src) "terrain" n /\
    let f := file_name (results_dir src) "terrain" n in
    let f' := file_name (results_dir src) "body_soil" n in
    let fs' := write_soil P src s fs in
    fs' f = Some (terrain_text P s) /\ fs' f' = Some (body_soil_text P s) /\
    forall f'', f'' <> f -> f'' <> f' -> fs' f'' = fs f''.
  Proof.
    intros src s fs. destruct (free_name_spec fs (results_dir src) "terrain") as (n & F & E).
    exists n. split; auto. cbv zeta. unfold write_soil. rewrite E, body_soil_name_spec by apply F.
    split; [|split].
    - rewrite put_other; [apply put_same|]. apply file_name_stem. discriminate.
    - apply put_same.
    - intros. rewrite !put_other; auto.
  Qed.

  (** Writing several states. *)
  Fixpoint write_all (src : string) (l : list (sim A)) (fs : files) : files :=
    match l with
    | [] => fs
    | s :: l' => write_all src l' (write_soil P src s fs)
    end.
  Definition used (fs : files) (path : string) (n : N) : Prop :=
    (forall m, (m < n)%N -> fs (file_name path "terrain" m) <> None) /\
    (forall m, (n <= m < 100000)%N -> fs (file_name path "terrain" m) = None).
  Lemma used_free : forall fs path n, (n < 100000)%N -> used fs path n ->
    first_free fs path "terrain" n.
  Proof. intros fs path n H (U1 & U2). split; auto. left. split; auto. apply U2; lia. Qed.
  Lemma write_soil_at : forall src (s : sim A) fs n, (n < 100000)%N -> used fs (results_dir src) n ->
    let f := file_name (results_dir src) "terrain" n in
    let f' := file_name (results_dir src) "body_soil" n in
    let fs' := write_soil P src s fs in
    fs' f = Some (terrain_text P s) /\ fs' f' = Some (body_soil_text P s) /\
    (forall f'', f'' <> f -> f'' <> f' -> fs' f'' = fs f'') /\
    used fs' (results_dir src) (n + 1).
  Proof.
    intros src s fs n H U. destruct (write_soil_spec src s fs) as (m & F & W).
    pose proof (first_free_unique _ _ _ _ _ F (used_free _ _ _ H U)) as ->. cbv zeta in *.
    destruct W as (W1 & W2 & W3). split; auto. split; auto. split; auto. destruct U as (U1 & U2).
    assert (D : forall m k, file_name (results_dir src) "terrain" m <>
      file_name (results_dir src) "body_soil" k) by (intros; apply file_name_stem; discriminate).
    split; intros m M.
    - destruct (N.eq_dec m n) as [->|N].
      + rewrite W1. discriminate.
      + rewrite W3; auto. { apply U1; lia. } intros E. apply file_name_inj in E; lia.
    - rewrite W3; auto. { apply U2; lia. } intros E. apply file_name_inj in E; lia.
  Qed.
  Lemma write_all_spec : forall src (l : list (sim A)) fs n,
    (n + N.of_nat (List.length l) <= 100000)%N -> used fs (results_dir src) n ->
    let fs' := write_all src l fs in
    (forall k s, nth_error l k = Some s ->
       fs' (file_name (results_dir src) "terrain" (n + N.of_nat k)) = Some (terrain_text P s) /\
       fs' (file_name (results_dir src) "body_soil" (n + N.of_nat k)) = Some (body_soil_text P s)) /\
    (forall f, (forall k, (n <= k < n + N.of_nat (List.length l))%N ->
        f <> file_name (results_dir src) "terrain" k /\
        f <> file_name (results_dir src) "body_soil" k) -> fs' f = fs f).
  Proof.
    induction l as [|s l IH]; intros fs n H U; cbn [write_all List.length] in *; cbv zeta.
    - split; [intros [|] ? E; discriminate|auto].
    - destruct (write_soil_at src s fs n ltac:(lia) U) as (W1 & W2 & W3 & W4).
      destruct (IH (write_soil P src s fs) (n + 1)%N ltac:(lia) W4) as (I1 & I2). split.
      + intros k s' E. destruct k as [|k].
        * injection E as <-. rewrite N.add_0_r. split; (etransitivity; [apply I2|]); auto.
          -- intros k K. split; [|apply file_name_stem; discriminate].
             intros E. apply file_name_inj in E; lia.
          -- intros k K. split; [apply file_name_stem; discriminate|].
             intros E. apply file_name_inj in E; lia.
        * specialize (I1 k s' E). replace (n + N.of_nat (S k))%N with (n + 1 + N.of_nat k)%N by lia. auto.
      + intros f F. rewrite I2.
        * destruct (F n ltac:(lia)). apply W3; auto.
        * intros k K. apply F. lia.
  Qed.
End Write.

(** * WriteBody *)
Section Body.
  Context {K : flt}.
  Variable pf : sf K -> string.
  Definition point (v : vec (sf K)) : list string := [pf (vx v); pf (vy v); pf (vz v)].

  Lemma corner_rows : (forall v, plain (pf v) = true) -> forall l,
    csv (header ++ text (map (corner_row pf) l)) = ["x"; "y"; "z"] :: (map point l ++ [[""]])%list.
  Proof.
    intros H l. rewrite csv_header. f_equal.
    apply (csv_rows (fun v => (pf (vx v), pf (vy v), pf (vz v)))). intros. cbv iota beta. auto.
  Qed.
  Lemma write_body_spec : forall src stem t fs, exists n, first_free fs (results_dir src) stem n /\
    let f := file_name (results_dir src) stem n in
    let fs' := put fs (free_name fs (results_dir src) stem) t in
    fs' f = Some t /\ forall f', f' <> f -> fs' f' = fs f'.
  Proof.
    intros src stem t fs. destruct (free_name_spec fs (results_dir src) stem) as (n & F & E).
    exists n. split; auto. cbv zeta. rewrite E. split; [apply put_same|]. intros. apply put_other; auto.
  Qed.
End Body.

(** * Overwriting *)
Lemma body_soil_overwritten : forall {A : Num} (P : printer A) src s old,
  let f := file_name (results_dir src) "body_soil" 0 in
  let fs := put (fun _ => None) f old in
  fs f = Some old /\ write_soil P src s fs f = Some (body_soil_text P s).
Proof.
  intros A P src s old f fs. split; [apply put_same|].
  assert (U : used fs (results_dir src) 0).
  { split; [intros; lia|]. intros m M. unfold fs. rewrite put_other; auto. apply file_name_stem. discriminate. }
  destruct (write_soil_at P src s fs 0%N ltac:(lia) U) as (_ & W & _). exact W.
Qed.

(** * Examples *)
From Verif Require Import Demo.
Lemma overwritten :
  exists fs f, exists old : string, fs f = Some old /\
  forall (A : Num) (P : printer A) (s : sim A),
    write_soil P "utils.cpp" s fs f = Some (body_soil_text P s) /\ body_soil_text P s <> old.
Proof.
  exists (put (fun _ => None) (file_name (results_dir "utils.cpp") "body_soil" 0) "important").
  exists (file_name (results_dir "utils.cpp") "body_soil" 0), "important".
  split; [apply put_same|]. intros A P s. split.
  - apply (body_soil_overwritten P "utils.cpp" s "important").
  - unfold body_soil_text, header. cbn. discriminate.
Qed.
Lemma nothing_hidden : forall (upm : units) near cz (s : sim (ZNum upm)),
  consistent near cz s (records s) -> records s = [] -> forall k i j, ~ column s k i j.
Proof.
  intros upm near cz s C E k i j (I & J & K & H).
  assert (S : cell_soil s (records s) i j).
  { destruct C as (_ & _ & C & _). apply C. split; auto. }
  destruct (S k K) as [Q _]. destruct Q as (_ & _ & L).
  - unfold soil_on. destruct H as [H|H]; [left|right]; apply Z.eqb_neq; exact H.
  - rewrite E in L. destruct L as (e & [] & _).
Qed.

Definition show (z : Z) : string :=
  if (z <? 0)%Z then "-" ++ to_string (Z.to_N (- z)) else to_string (Z.to_N z).
Definition demo_printer : printer (ZNum (zunits 100)) := @mkPrinter (ZNum (zunits 100)) show show show "-50".
Lemma digit_plain : forall n, (n < 10)%N -> plain (String (digit n) "") = true.
Proof.
  intros n H. assert (E : all_from (fun n => plain (String (digit n) "")) 10 0 = true) by reflexivity.
  exact (all_from_spec _ _ _ E n ltac:(lia)).
Qed.
Lemma plain_app : forall a b, plain (a ++ b) = plain a && plain b.
Proof.
  intros. unfold plain. rewrite !has_char_app, !negb_orb.
  destruct (has_char "," a), (has_char "," b), (has_char (ascii_of_N 10) a); auto.
Qed.
Lemma decimal_plain : forall k n acc, plain acc = true -> plain (decimal k n acc) = true.
Proof.
  induction k as [|k IH]; intros n acc H; cbn [decimal]; auto.
  assert (P : plain (String (digit (n mod 10)) acc) = true).
  { change (String (digit (n mod 10)) acc) with (String (digit (n mod 10)) "" ++ acc).
    rewrite plain_app, H, digit_plain; auto. apply N.mod_lt. discriminate. }
  destruct (n / 10 =? 0)%N; auto.
Qed.
Lemma show_plain : forall z, plain (show z) = true.
Proof.
  intros z. unfold show. destruct (z <? 0)%Z; [rewrite plain_app; cbn [andb]|]; apply decimal_plain; auto.
Qed.
Lemma files_example :
  plain_printer demo_printer /\
  consistent (upm := zunits 100) demo_near (cell_z demo_grid) (fst demo_mid) (records (fst demo_mid)) /\
  List.length (csv (terrain_text demo_printer (fst demo_mid))) = 83%nat /\
  csv (body_soil_text demo_printer (fst demo_mid)) =
    [["x"; "y"; "z"]; ["5"; "4"; "20"]; ["5"; "5"; "20"]; [""]].
Proof.
  split; [|split; [|split]].
  - split; [exact show_plain|]. split; [exact show_plain|]. split; [exact show_plain|reflexivity].
  - destruct demo_mid as [s old] eqn:E. pose proof demo_mid_ok as H. rewrite E in H. apply H.
  - vm_cast_no_check (@eq_refl nat 83%nat).
  - vm_cast_no_check (@eq_refl (list (list string))
      [["x"; "y"; "z"]; ["5"; "4"; "20"]; ["5"; "5"; "20"]; [""]]).
Qed.
