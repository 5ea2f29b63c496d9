(** The inner cells of a surface (body_pos.cpp:318-391, 453-498), for any numbers. *)
From Coq Require Import ZArith List Bool Lia.
From Verif Require Import Outcome Base Flt State ModelTypes ModelGeometry ModelBodyPos ModelRaster.
Import ListNotations.
Open Scope Z_scope.

Lemma zrange_shift : forall m n, zrange m n = map (fun k => m + k) (zrange 0 (n - m)).
Proof.
  intros m n. unfold zrange. rewrite map_map, Z.sub_0_r. apply map_ext. intros; lia.
Qed.
Lemma zrange_length : forall m n, length (zrange m n) = Z.to_nat (n - m).
Proof. intros; unfold zrange; rewrite map_length, seq_length; reflexivity. Qed.
Lemma nth_zrange : forall {X} (f : Z -> X) n i d, 0 <= i < n ->
  nth (Z.to_nat i) (map f (zrange 0 n)) d = f i.
Proof.
  intros X f n i d H. rewrite (nth_indep _ d (f 0)) by (rewrite map_length, zrange_length; lia).
  rewrite map_nth. unfold zrange.
  rewrite (nth_indep _ 0 ((fun k => 0 + Z.of_nat k) 0%nat)) by (rewrite map_length, seq_length; lia).
  rewrite (map_nth (fun k => 0 + Z.of_nat k)), seq_nth by lia. f_equal. lia.
Qed.
Lemma entry_eq : forall {X} (f : Z -> Z -> X) nx ny i j d, 0 <= i < nx -> 0 <= j < ny ->
  entry d (map (fun i => map (f i) (zrange 0 ny)) (zrange 0 nx)) i j = f i j.
Proof.
  intros X f nx ny i j d Hi Hj. unfold entry.
  rewrite (nth_zrange (fun i => map (f i) (zrange 0 ny))) by auto. apply nth_zrange; auto.
Qed.

Section Fill.
  Context {K : flt}.
  Notation sf := (sf K).
  Notation vec := (vec sf).
  Variables (inside : sf * sf -> bool) (a ab ad : vec) (min_x max_x min_y max_y : Z).

  Definition coeffs_at (c : Z * Z) : sf * sf :=
    corner_coeffs ab ad a min_x min_y (fst c - min_x) (snd c - min_y).

  (** The cells whose top right corner is inside, in the order of the loops. *)
  Definition marked : list (Z * Z) :=
    filter (fun c => inside (coeffs_at c))
      (flat_map (fun i => map (fun j => (i, j)) (zrange min_y max_y)) (zrange min_x max_x)).

  (** Height of the surface above a corner. *)
  Definition surface_z (c : Z * Z) : sf :=
    (vz a +! fst (coeffs_at c) *! vz ab +! snd (coeffs_at c) *! vz ad)%flt.
  Definition four (c : Z * Z) (k : Z) : list cell3 :=
    let '(i, j) := c in [(i, j, k); (i + 1, j, k); (i, j + 1, k); (i + 1, j + 1, k)].
  Fixpoint collect (l : list (Z * Z)) : outcome (list cell3) :=
    match l with
    | [] => Ok []
    | c :: l' => k <- s_int (sceil (surface_z c)) ;; r <- collect l' ;; Ok (four c k ++ r)
    end.

  Let dec := decompose inside ab ad a min_x min_y (max_x - min_x) (max_y - min_y).

  Lemma concat_flat_map : forall X Y (f : X -> list Y) l, concat (map f l) = flat_map f l.
  Proof. intros; symmetry; apply flat_map_concat_map. Qed.

  Lemma filter_flat_map : forall X Y (f : Y -> bool) (g : X -> list Y) l,
    filter f (flat_map g l) = flat_map (fun x => filter f (g x)) l.
  Proof.
    intros X Y f g l. induction l as [|x l IH]; [reflexivity|].
    cbn [flat_map]. rewrite <- IH. generalize (flat_map g l). intros r.
    induction (g x) as [|y m IHm]; [reflexivity|]. simpl. rewrite IHm.
    destruct (f y); reflexivity.
  Qed.
  Lemma length_filter_map : forall X Y (f : Y -> bool) (g : X -> Y) l,
    length (filter f (map g l)) = length (filter (fun x => f (g x)) l).
  Proof.
    intros X Y f g l. induction l as [|x l IH]; [reflexivity|]. simpl.
    destruct (f (g x)); simpl; rewrite IH; reflexivity.
  Qed.
  Lemma length_flat_map_ext : forall X Y Z (f : X -> list Y) (g : X -> list Z) l,
    (forall x, length (f x) = length (g x)) -> length (flat_map f l) = length (flat_map g l).
  Proof.
    intros X Y Z f g l H. induction l as [|x l IH]; [reflexivity|].
    simpl. rewrite !app_length, H, IH. reflexivity.
  Qed.

  (** The count of the decomposition. *)
  Lemma decompose_count : snd dec = 4 * Z.of_nat (length marked).
  Proof.
    unfold dec, decompose. cbn [snd]. f_equal. f_equal. unfold marked.
    rewrite map_map, concat_flat_map, !filter_flat_map.
    rewrite (zrange_shift min_x max_x).
    assert (E : forall X (f : Z -> list X) l, flat_map f (map (fun k => min_x + k) l) =
                                         flat_map (fun k => f (min_x + k)) l).
    { intros. rewrite !flat_map_concat_map, map_map. reflexivity. }
    rewrite E. apply length_flat_map_ext. intros i.
    rewrite map_map, (zrange_shift min_y max_y), map_map, !length_filter_map. f_equal.
    apply filter_ext. intros j. unfold coeffs_at. cbn [fst snd].
    f_equal. f_equal; lia.
  Qed.

  Lemma put_eq : forall d y r x (n : Z), n = Z.of_nat (length d) ->
    put (d ++ y :: r) n x = Ok (d ++ x :: r).
  Proof.
    intros d y r x n ->. unfold put. rewrite Nat2Z.id.
    assert (G : (0 <=? Z.of_nat (length d)) && (Z.of_nat (length d) <? Z.of_nat (length (d ++ y :: r))) = true).
    { rewrite app_length. cbn [length]. apply andb_true_iff; split; [apply Z.leb_le|apply Z.ltb_lt]; lia. }
    rewrite G. cbn [guard]. f_equal. induction d as [|z d IH]; [reflexivity|].
    cbn [app list_set length]. rewrite IH; auto.
    apply andb_true_iff; split; [apply Z.leb_le|apply Z.ltb_lt]; rewrite ?app_length; cbn [length]; lia.
  Qed.

  Lemma fill_step : forall d c0 r i j k nn, nn = Z.of_nat (length d) ->
    (l <- put (d ++ c0 :: c0 :: c0 :: c0 :: r) nn (i, j, k) ;;
     l <- put l (nn + 1) (i + 1, j, k) ;;
     l <- put l (nn + 2) (i, j + 1, k) ;;
     l <- put l (nn + 3) (i + 1, j + 1, k) ;;
     Ok (l, nn + 4)) = Ok ((d ++ four (i, j) k) ++ r, nn + 4).
  Proof.
    intros d c0 r i j k nn ->.
    assert (A : forall (e : list cell3) x l, (d ++ e) ++ x :: l = (d ++ (e ++ [x])) ++ l).
    { intros. rewrite <- !app_assoc. reflexivity. }
    rewrite put_eq by auto. cbn [bind]. rewrite <- (app_nil_r d) at 1. rewrite A. cbn [app].
    rewrite (put_eq (d ++ [(i, j, k)])) by (rewrite app_length; cbn [length]; lia). cbn [bind].
    rewrite A. cbn [app].
    rewrite (put_eq (d ++ [(i, j, k); (i + 1, j, k)])) by (rewrite app_length; cbn [length]; lia).
    cbn [bind]. rewrite A. cbn [app].
    rewrite (put_eq (d ++ [(i, j, k); (i + 1, j, k); (i, j + 1, k)]))
      by (rewrite app_length; cbn [length]; lia).
    cbn [bind]. rewrite <- !app_assoc. reflexivity.
  Qed.

  (** The list of inner cells is filled exactly: four cells for each marked one, in
      order, no entry left at its initial value and none out of range. *)
  Theorem fill_inner_eq :
    let '(cs, ins, n) := dec in
    fill_inner cs ins a ab ad min_x max_x min_y max_y n = collect marked.
  Proof.
    pose proof decompose_count as N. destruct dec as [[cs ins] n] eqn:D. cbn [snd] in N.
    unfold fill_inner. subst n.
    replace (Z.to_nat (4 * Z.of_nat (length marked))) with (4 * length marked)%nat by lia.
    assert (Cs : forall i j, min_x <= i < max_x -> min_y <= j < max_y ->
      entry (s0, s0) cs (i - min_x) (j - min_y) = coeffs_at (i, j) /\
      entry false ins (i - min_x) (j - min_y) = inside (coeffs_at (i, j))).
    { intros i j Hi Hj. unfold dec, decompose in D. injection D as <- <- _. split.
      - rewrite (entry_eq (fun i j => corner_coeffs ab ad a min_x min_y i j)) by lia. reflexivity.
      - rewrite map_map. erewrite map_ext by (intros; apply map_map).
        rewrite (entry_eq (fun i j => inside (corner_coeffs ab ad a min_x min_y i j))) by lia.
        reflexivity. }
    unfold marked.
    set (L := flat_map _ _).
    assert (HL : forall i j, In (i, j) L -> min_x <= i < max_x /\ min_y <= j < max_y).
    { intros i j H. unfold L in H. apply in_flat_map in H. destruct H as (i' & Hi & H).
      apply in_map_iff in H. destruct H as (j' & E & Hj). injection E as -> ->.
      rewrite in_zrange in *. auto. }
    clearbody L. clear D.
    assert (G : forall L d, (forall i j, In (i, j) L -> min_x <= i < max_x /\ min_y <= j < max_y) ->
      ('(l, _) <- for_each L
      (fun c st =>
         let '(ii, jj) := c in
         let '(l, nn) := st in
         if entry false ins (ii - min_x) (jj - min_y) then
           let '(c_ab, c_ad) := entry (s0, s0) cs (ii - min_x) (jj - min_y) in
           kk <- s_int (sceil (vz a +! c_ab *! vz ab +! c_ad *! vz ad)%flt) ;;
           l <- put l nn (ii, jj, kk) ;;
           l <- put l (nn + 1) (ii + 1, jj, kk) ;;
           l <- put l (nn + 2) (ii, jj + 1, kk) ;;
           l <- put l (nn + 3) (ii + 1, jj + 1, kk) ;;
           Ok (l, nn + 4)
         else Ok (l, nn))
      (d ++ repeat (0, 0, 0) (4 * length (filter (fun c => inside (coeffs_at c)) L)),
       Z.of_nat (length d)) ;;
       Ok l) = (r <- collect (filter (fun c => inside (coeffs_at c)) L) ;; Ok (d ++ r))).
    { clear HL L. induction L as [|[i j] L IH]; intros d HL.
      - reflexivity.
      - destruct (HL i j (or_introl eq_refl)) as [Hi Hj]. destruct (Cs i j Hi Hj) as [C1 C2].
        cbn [for_each filter]. cbv zeta. rewrite C2, C1. destruct (inside (coeffs_at (i, j))).
        + destruct (coeffs_at (i, j)) as [ca cd] eqn:Ec.
          cbn [collect]. unfold surface_z at 1. rewrite Ec. cbn [fst snd].
          destruct (s_int _) as [k| |]; cbn [bind]; try reflexivity.
          replace (4 * length ((i, j) :: filter (fun c => inside (coeffs_at c)) L))%nat
            with (4 + 4 * length (filter (fun c => inside (coeffs_at c)) L))%nat
            by (cbn [length]; lia).
          cbn [repeat Nat.add]. rewrite fill_step by auto. cbn [bind].
          replace (Z.of_nat (length d) + 4) with (Z.of_nat (length (d ++ four (i, j) k)))
            by (rewrite app_length; cbn; lia).
          rewrite IH by (intros; apply HL; right; auto).
          destruct (collect _); cbn [bind]; try reflexivity. rewrite <- app_assoc. reflexivity.
        + cbn [bind]. apply IH. intros; apply HL; right; auto. }
    transitivity (r <- collect (filter (fun c => inside (coeffs_at c)) L) ;; Ok ([] ++ r)).
    - exact (G L [] HL).
    - destruct (collect _); reflexivity.
  Qed.
End Fill.
