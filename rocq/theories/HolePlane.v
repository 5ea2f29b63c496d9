(** Plane geometry for the walls without holes: a cell inside of a parallelogram or of a
    triangle has a corner well inside. A coordinate of the surface is an affine function:
    [p + a * x + b * y], (x, y) being the position from the centre of the cell. *)
From Coq Require Import Reals ZArith List Bool Lra Lia Psatz.
From Verif Require Import SpecHole.
Import ListNotations.
Open Scope R_scope.

(** ** Where a segment leaves a convex region *)
(** Each constraint is given by its values at both ends. *)
Lemma leave : forall l : list (R * R),
  (forall c, In c l -> 0 <= fst c) -> (exists c, In c l /\ snd c < 0) ->
  exists t, 0 <= t <= 1 /\ (forall c, In c l -> 0 <= (1 - t) * fst c + t * snd c) /\
    exists c, In c l /\ (1 - t) * fst c + t * snd c = 0.
Proof.
  induction l as [|[u v] l IH]; intros P N; [destruct N as (c & [] & _)|].
  assert (Hu : 0 <= u) by (apply (P (u, v)); left; auto).
  assert (IN : (exists c, In c l /\ snd c < 0) \/ forall c, In c l -> 0 <= snd c).
  { clear. induction l as [|c l IH]; [right; intros c []|].
    destruct (Rlt_dec (snd c) 0) as [L|L]; [left; exists c; split; [left|]; auto|].
    destruct IH as [(d & D & E)|F]; [left; exists d; split; [right|]; auto|].
    right. intros d [<-|D]; auto. lra. }
  assert (own : v < 0 -> exists t, 0 <= t <= 1 /\ (1 - t) * u + t * v = 0).
  { intros V. exists (u / (u - v)). assert (0 < u - v) by lra. split.
    - split; [apply Rmult_le_pos; [lra|left; apply Rinv_0_lt_compat; lra]|].
      apply (Rmult_le_reg_r (u - v)); [lra|]. unfold Rdiv. rewrite Rmult_assoc, Rinv_l; lra.
    - field. lra. }
  destruct IN as [E|F].
  - destruct IH as (t & T & A & c & C & Z); auto. { intros c C. apply P. right; auto. }
    destruct (Rle_dec 0 ((1 - t) * u + t * v)) as [K|K].
    + exists t. split; auto. split.
      * intros d [<-|D]; auto.
      * exists c. split; [right|]; auto.
    + assert (V : v < 0) by nra. destruct (own V) as (t' & T' & Z').
      assert (LE : t' <= t) by nra. exists t'. split; auto. split.
      * intros d [<-|D]; [cbn; lra|]. specialize (A d D). specialize (P d (or_intror D)).
        destruct (Req_dec t 0) as [->|T0]; [replace t' with 0 by lra; lra|].
        assert (0 <= t' * ((1 - t) * fst d + t * snd d)) by (apply Rmult_le_pos; lra).
        assert (0 <= (t - t') * fst d) by (apply Rmult_le_pos; lra).
        apply (Rmult_le_reg_l t); [lra|]. lra.
      * exists (u, v). split; [left|]; auto.
  - destruct N as (c & [<-|C] & V); [|specialize (F c C); lra]. cbn in V.
    destruct (own V) as (t & T & Z). exists t. split; auto. split.
    + intros d [<-|D]; [cbn; lra|]. specialize (F d D). specialize (P d (or_intror D)).
      apply Rplus_le_le_0_compat; apply Rmult_le_pos; lra.
    + exists (u, v). split; [left|]; auto.
Qed.

(** ** The corners of the cell and of the cell reduced by the margin *)
Lemma corners_near : forall p s m, 0 < m <= / 100 ->
  0 <= p + s * (/ 2 - m) <= 1 -> 0 <= p - s * (/ 2 - m) <= 1 ->
  -(21 / 20) <= s <= 21 / 20 /\
  -(21 / 20) * m <= p + s / 2 <= 1 + 21 / 20 * m /\
  -(21 / 20) * m <= p - s / 2 <= 1 + 21 / 20 * m.
Proof.
  intros p s m M H1 H2.
  assert (S : -(21 / 20) <= s <= 21 / 20) by (split; nra).
  assert (-(21 / 20) * m <= s * m <= 21 / 20 * m) by (split; nra).
  split; [exact S|]. split; lra.
Qed.

(** The value at the corner (x, y) of the cell, in half cells. *)
Definition value (p a b x y : R) : R := p + a * x + b * y.

Lemma four_near : forall p a b m, 0 < m <= / 100 ->
  (forall x y, (x = -1 \/ x = 1) -> (y = -1 \/ y = 1) ->
     0 <= value p a b (x * (/ 2 - m)) (y * (/ 2 - m)) <= 1) ->
  -(21 / 20) <= a + b <= 21 / 20 /\ -(21 / 20) <= a - b <= 21 / 20 /\
  forall x y, (x = -1 \/ x = 1) -> (y = -1 \/ y = 1) ->
    -(21 / 20) * m <= value p a b (x / 2) (y / 2) <= 1 + 21 / 20 * m.
Proof.
  intros p a b m M H. unfold value in *.
  pose proof (H 1 1 (or_intror eq_refl) (or_intror eq_refl)) as H1.
  pose proof (H (-1) (-1) (or_introl eq_refl) (or_introl eq_refl)) as H2.
  pose proof (H 1 (-1) (or_intror eq_refl) (or_introl eq_refl)) as H3.
  pose proof (H (-1) 1 (or_introl eq_refl) (or_intror eq_refl)) as H4.
  destruct (corners_near p (a + b) m M) as (A & B & C); try lra.
  destruct (corners_near p (a - b) m M) as (D & E & F); try lra.
  split; [exact A|]. split; [exact D|].
  intros x y [->| ->] [->| ->]; lra.
Qed.

(** The cross product of two gradients is small when two components are. *)
Lemma cross_small : forall a1 b1 a2 b2 e n,
  0 <= e -> 0 <= n -> -n <= a1 <= n -> -n <= a2 <= n -> -e <= b1 <= e -> -e <= b2 <= e ->
  Rabs (a1 * b2 - b1 * a2) <= 2 * n * e.
Proof.
  intros a1 b1 a2 b2 e n E N A1 A2 B1 B2. 
  assert (M : forall u v, -n <= u <= n -> -e <= v <= e -> -(n * e) <= u * v <= n * e).
  { intros u v U V. split; nra. }
  pose proof (M a1 b2 A1 B2). pose proof (M a2 b1 A2 B1). apply Rabs_le. lra.
Qed.

(** ** The parallelogram *)
(** One coordinate is small, or large, at no corner but on one side: the values [c1] and
    [c2] at the four corners, all above [- u], and at each corner one is below [t]. *)
Lemma low_corners : forall p1 a1 b1 p2 a2 b2 t u, 0 <= t -> 0 <= u ->
  (forall x y, (x = -1 \/ x = 1) -> (y = -1 \/ y = 1) ->
    - u <= value p1 a1 b1 (x / 2) (y / 2) /\ - u <= value p2 a2 b2 (x / 2) (y / 2)) ->
  (forall x y, (x = -1 \/ x = 1) -> (y = -1 \/ y = 1) ->
    value p1 a1 b1 (x / 2) (y / 2) <= t \/ value p2 a2 b2 (x / 2) (y / 2) <= t) ->
  let n := 2 * t + 2 * u in
  (-n <= a1 <= n /\ -n <= a2 <= n) \/ (-n <= b1 <= n /\ -n <= b2 <= n) \/
  (-n <= a1 <= n /\ -n <= b1 <= n) \/ (-n <= a2 <= n /\ -n <= b2 <= n).
Proof.
  intros p1 a1 b1 p2 a2 b2 t u T U H L n. unfold value, n in *.
  pose proof (H 1 1 (or_intror eq_refl) (or_intror eq_refl)) as [].
  pose proof (H (-1) (-1) (or_introl eq_refl) (or_introl eq_refl)) as [].
  pose proof (H 1 (-1) (or_intror eq_refl) (or_introl eq_refl)) as [].
  pose proof (H (-1) 1 (or_introl eq_refl) (or_intror eq_refl)) as [].
  destruct (L 1 1 (or_intror eq_refl) (or_intror eq_refl));
  destruct (L (-1) (-1) (or_introl eq_refl) (or_introl eq_refl));
  destruct (L 1 (-1) (or_intror eq_refl) (or_introl eq_refl));
  destruct (L (-1) 1 (or_introl eq_refl) (or_intror eq_refl)); clear H L;
  first [ left; lra | right; left; lra | right; right; left; lra | right; right; right; lra ].
Qed.

(** The extent of the cell, in a coordinate of the surface, is not one: either there is
    room, or the cell does not fit. *)

Lemma one_side : forall p a b tol m, 0 <= tol -> 0 < m <= / 100 ->
  (forall x y, (x = -1 \/ x = 1) -> (y = -1 \/ y = 1) ->
     0 <= value p a b (x * (/ 2 - m)) (y * (/ 2 - m)) <= 1) ->
  room tol m (Rabs a + Rabs b) ->
  (forall x y, (x = -1 \/ x = 1) -> (y = -1 \/ y = 1) -> tol < value p a b (x / 2) (y / 2)) \/
  (forall x y, (x = -1 \/ x = 1) -> (y = -1 \/ y = 1) -> value p a b (x / 2) (y / 2) < 1 - tol).
Proof.
  intros p a b tol m T M H R. unfold value in *.
  pose proof (H 1 1 (or_intror eq_refl) (or_intror eq_refl)) as H1.
  pose proof (H (-1) (-1) (or_introl eq_refl) (or_introl eq_refl)) as H2.
  pose proof (H 1 (-1) (or_intror eq_refl) (or_introl eq_refl)) as H3.
  pose proof (H (-1) 1 (or_introl eq_refl) (or_intror eq_refl)) as H4. clear H.
  assert (A : (a = Rabs a \/ a = - Rabs a) /\ (b = Rabs b \/ b = - Rabs b)).
  { unfold Rabs. destruct (Rcase_abs a), (Rcase_abs b); split; lra. }
  pose proof (Rabs_pos a) as Pa. pose proof (Rabs_pos b) as Pb.
  set (u := Rabs a) in *. set (v := Rabs b) in *. clearbody u v.
  destruct R as [R|R].
  2: { exfalso. assert (E : (1 - 2 * m) * (u + v) <= 1) by (destruct A as [[-> | ->] [-> | ->]]; lra). lra. }
  destruct (Rlt_dec tol (p - u / 2 - v / 2)) as [L|L].
  - left. intros x y [->| ->] [->| ->]; destruct A as [[-> | ->] [-> | ->]]; lra.
  - right. intros x y [->| ->] [->| ->]; destruct A as [[-> | ->] [-> | ->]]; lra.
Qed.

Lemma low_cross : forall p1 a1 b1 p2 a2 b2 tol m, 0 <= tol -> 0 < m <= / 100 ->
  -(21 / 20) <= a1 + b1 <= 21 / 20 -> -(21 / 20) <= a1 - b1 <= 21 / 20 ->
  -(21 / 20) <= a2 + b2 <= 21 / 20 -> -(21 / 20) <= a2 - b2 <= 21 / 20 ->
  (forall x y, (x = -1 \/ x = 1) -> (y = -1 \/ y = 1) ->
    - (21 / 20 * m) <= value p1 a1 b1 (x / 2) (y / 2) /\ - (21 / 20 * m) <= value p2 a2 b2 (x / 2) (y / 2)) ->
  (forall x y, (x = -1 \/ x = 1) -> (y = -1 \/ y = 1) ->
    value p1 a1 b1 (x / 2) (y / 2) <= tol \/ value p2 a2 b2 (x / 2) (y / 2) <= tol) ->
  Rabs (a1 * b2 - b1 * a2) <= 5 * (tol + m).
Proof.
  intros p1 a1 b1 p2 a2 b2 tol m T M A1 A2 A3 A4 H L.
  pose proof (low_corners p1 a1 b1 p2 a2 b2 tol (21 / 20 * m) T ltac:(lra) H L) as C. cbv zeta in C.
  set (n := 2 * tol + 2 * (21 / 20 * m)) in *. assert (N : 0 <= n) by (unfold n; lra).
  assert (G : 2 * n * (21 / 20) <= 5 * (tol + m)) by (unfold n; lra).
  apply Rle_trans with (2 * n * (21 / 20)); [|exact G]. clear G H L. clearbody n.
  destruct C as [[C D]|[[C D]|[[C D]|[C D]]]].
  - apply cross_small; lra.
  - replace (a1 * b2 - b1 * a2) with (- (b1 * a2 - a1 * b2)) by ring. rewrite Rabs_Ropp.
    apply cross_small; lra.
  - replace (a1 * b2 - b1 * a2) with (a1 * b2 - a2 * b1) by ring. apply cross_small; lra.
  - replace (a1 * b2 - b1 * a2) with (- (a2 * b1 - a1 * b2)) by ring. rewrite Rabs_Ropp.
    apply cross_small; lra.
Qed.

Lemma flip : forall p a b x y, value (1 - p) (- a) (- b) x y = 1 - value p a b x y.
Proof. intros. unfold value. ring. Qed.

(** A reduced cell inside of the parallelogram has a corner well inside of it. *)
Lemma square_corner : forall p1 a1 b1 p2 a2 b2 tol m, 0 <= tol -> 0 < m <= / 100 ->
  (forall x y, (x = -1 \/ x = 1) -> (y = -1 \/ y = 1) ->
     0 <= value p1 a1 b1 (x * (/ 2 - m)) (y * (/ 2 - m)) <= 1) ->
  (forall x y, (x = -1 \/ x = 1) -> (y = -1 \/ y = 1) ->
     0 <= value p2 a2 b2 (x * (/ 2 - m)) (y * (/ 2 - m)) <= 1) ->
  room tol m (Rabs a1 + Rabs b1) -> room tol m (Rabs a2 + Rabs b2) ->
  5 * (tol + m) < Rabs (a1 * b2 - b1 * a2) ->
  exists x y, (x = -1 \/ x = 1) /\ (y = -1 \/ y = 1) /\
    tol < value p1 a1 b1 (x / 2) (y / 2) < 1 - tol /\
    tol < value p2 a2 b2 (x / 2) (y / 2) < 1 - tol.
Proof.
  (* first when the values are small on one side only *)
  assert (LOW : forall p1 a1 b1 p2 a2 b2 tol m, 0 <= tol -> 0 < m <= / 100 ->
    (forall x y, (x = -1 \/ x = 1) -> (y = -1 \/ y = 1) ->
       0 <= value p1 a1 b1 (x * (/ 2 - m)) (y * (/ 2 - m)) <= 1) ->
    (forall x y, (x = -1 \/ x = 1) -> (y = -1 \/ y = 1) ->
       0 <= value p2 a2 b2 (x * (/ 2 - m)) (y * (/ 2 - m)) <= 1) ->
    5 * (tol + m) < Rabs (a1 * b2 - b1 * a2) ->
    exists x y, (x = -1 \/ x = 1) /\ (y = -1 \/ y = 1) /\
      tol < value p1 a1 b1 (x / 2) (y / 2) /\ tol < value p2 a2 b2 (x / 2) (y / 2)).
  { intros p1 a1 b1 p2 a2 b2 tol m T M H1 H2 D.
    destruct (four_near _ _ _ _ M H1) as (A1 & A2 & A3). destruct (four_near _ _ _ _ M H2) as (B1 & B2 & B3).
    assert (Q : forall x y, {tol < value p1 a1 b1 (x / 2) (y / 2) /\ tol < value p2 a2 b2 (x / 2) (y / 2)} +
      {value p1 a1 b1 (x / 2) (y / 2) <= tol \/ value p2 a2 b2 (x / 2) (y / 2) <= tol}).
    { intros x y. destruct (Rlt_dec tol (value p1 a1 b1 (x / 2) (y / 2)));
      destruct (Rlt_dec tol (value p2 a2 b2 (x / 2) (y / 2))); [left; auto|right; lra..]. }
    destruct (Q 1 1) as [Q1|Q1]; [exists 1, 1; tauto|].
    destruct (Q 1 (-1)) as [Q2|Q2]; [exists 1, (-1); tauto|].
    destruct (Q (-1) 1) as [Q3|Q3]; [exists (-1), 1; tauto|].
    destruct (Q (-1) (-1)) as [Q4|Q4]; [exists (-1), (-1); tauto|].
    exfalso. apply (Rlt_not_le _ _ D). apply (low_cross p1 a1 b1 p2 a2 b2); auto.
    - intros x y X Y. specialize (A3 x y X Y). specialize (B3 x y X Y). lra.
    - intros x y [->| ->] [->| ->]; assumption. }
  intros p1 a1 b1 p2 a2 b2 tol m T M H1 H2 R1 R2 D.
  assert (F : forall p a b, (forall x y, (x = -1 \/ x = 1) -> (y = -1 \/ y = 1) ->
       0 <= value p a b (x * (/ 2 - m)) (y * (/ 2 - m)) <= 1) ->
     forall x y, (x = -1 \/ x = 1) -> (y = -1 \/ y = 1) ->
       0 <= value (1 - p) (- a) (- b) (x * (/ 2 - m)) (y * (/ 2 - m)) <= 1).
  { intros p a b H x y X Y. rewrite flip. specialize (H x y X Y). lra. }
  destruct (one_side _ _ _ _ _ T M H1 R1) as [S1|S1]; destruct (one_side _ _ _ _ _ T M H2 R2) as [S2|S2].
  - destruct (LOW (1 - p1) (- a1) (- b1) (1 - p2) (- a2) (- b2) tol m T M (F _ _ _ H1) (F _ _ _ H2))
      as (x & y & X & Y & V & W).
    { replace (- a1 * - b2 - - b1 * - a2) with (a1 * b2 - b1 * a2) by ring. exact D. }
    rewrite !flip in *. exists x, y. specialize (S1 x y X Y). specialize (S2 x y X Y).
    split; [exact X|]. split; [exact Y|]. lra.
  - destruct (LOW (1 - p1) (- a1) (- b1) p2 a2 b2 tol m T M (F _ _ _ H1) H2) as (x & y & X & Y & V & W).
    { replace (- a1 * b2 - - b1 * a2) with (- (a1 * b2 - b1 * a2)) by ring. rewrite Rabs_Ropp. exact D. }
    rewrite !flip in *. exists x, y. specialize (S1 x y X Y). specialize (S2 x y X Y).
    split; [exact X|]. split; [exact Y|]. lra.
  - destruct (LOW p1 a1 b1 (1 - p2) (- a2) (- b2) tol m T M H1 (F _ _ _ H2)) as (x & y & X & Y & V & W).
    { replace (a1 * - b2 - b1 * - a2) with (- (a1 * b2 - b1 * a2)) by ring. rewrite Rabs_Ropp. exact D. }
    rewrite !flip in *. exists x, y. specialize (S1 x y X Y). specialize (S2 x y X Y).
    split; [exact X|]. split; [exact Y|]. lra.
  - destruct (LOW p1 a1 b1 p2 a2 b2 tol m T M H1 H2 D) as (x & y & X & Y & V & W).
    exists x, y. specialize (S1 x y X Y). specialize (S2 x y X Y).
    split; [exact X|]. split; [exact Y|]. lra.
Qed.

(** ** The triangle *)
(** Three coordinates of sum one. *)
Lemma low_three : forall p1 a1 b1 p2 a2 b2 t u, 0 <= t -> 0 <= u ->
  let p3 := 1 - p1 - p2 in let a3 := - a1 - a2 in let b3 := - b1 - b2 in
  (forall x y, (x = -1 \/ x = 1) -> (y = -1 \/ y = 1) ->
    - u <= value p1 a1 b1 (x / 2) (y / 2) /\ - u <= value p2 a2 b2 (x / 2) (y / 2) /\
    - u <= value p3 a3 b3 (x / 2) (y / 2)) ->
  (forall x y, (x = -1 \/ x = 1) -> (y = -1 \/ y = 1) ->
    value p1 a1 b1 (x / 2) (y / 2) <= t \/ value p2 a2 b2 (x / 2) (y / 2) <= t \/
    value p3 a3 b3 (x / 2) (y / 2) <= t) ->
  let e := (1 - 3 * t) / 2 in
  - e < a1 < e -> - e < b1 < e -> - e < a2 < e -> - e < b2 < e -> - e < a3 < e -> - e < b3 < e ->
  let n := 2 * t + 2 * u in
  (-n <= a1 <= n /\ -n <= b1 <= n) \/ (-n <= a2 <= n /\ -n <= b2 <= n) \/
  (-n <= a3 <= n /\ -n <= b3 <= n) \/
  (-n <= a1 <= n /\ -n <= a2 <= n) \/ (-n <= a1 <= n /\ -n <= a3 <= n) \/
  (-n <= a2 <= n /\ -n <= a3 <= n) \/
  (-n <= b1 <= n /\ -n <= b2 <= n) \/ (-n <= b1 <= n /\ -n <= b3 <= n) \/
  (-n <= b2 <= n /\ -n <= b3 <= n).
Proof.
  intros p1 a1 b1 p2 a2 b2 t u T U p3 a3 b3 H L e E1 E2 E3 E4 E5 E6 n.
  unfold value, n, e, p3, a3, b3 in *. clear n e p3 a3 b3.
  pose proof (H 1 1 (or_intror eq_refl) (or_intror eq_refl)) as (? & ? & ?).
  pose proof (H (-1) (-1) (or_introl eq_refl) (or_introl eq_refl)) as (? & ? & ?).
  pose proof (H 1 (-1) (or_intror eq_refl) (or_introl eq_refl)) as (? & ? & ?).
  pose proof (H (-1) 1 (or_introl eq_refl) (or_intror eq_refl)) as (? & ? & ?).
  destruct (L 1 1 (or_intror eq_refl) (or_intror eq_refl)) as [?|[?|?]];
  destruct (L (-1) (-1) (or_introl eq_refl) (or_introl eq_refl)) as [?|[?|?]];
  destruct (L 1 (-1) (or_intror eq_refl) (or_introl eq_refl)) as [?|[?|?]];
  destruct (L (-1) 1 (or_introl eq_refl) (or_intror eq_refl)) as [?|[?|?]]; clear H L;
  first [ exfalso; lra | left; lra | right; left; lra | do 2 right; left; lra | do 3 right; left; lra
        | do 4 right; left; lra | do 5 right; left; lra | do 6 right; left; lra
        | do 7 right; left; lra | do 8 right; lra ].
Qed.

(** A strip that holds a reduced cell is not too narrow. *)
Lemma strip_holds : forall p a b m, 0 < m <= / 100 ->
  (forall x y, (x = -1 \/ x = 1) -> (y = -1 \/ y = 1) ->
     0 <= value p a b (x * (/ 2 - m)) (y * (/ 2 - m)) <= 1) ->
  (1 - 2 * m) * (Rabs a + Rabs b) <= 1.
Proof.
  intros p a b m M H. unfold value in H.
  pose proof (H 1 1 ltac:(auto) ltac:(auto)). pose proof (H 1 (-1) ltac:(auto) ltac:(auto)).
  pose proof (H (-1) 1 ltac:(auto) ltac:(auto)). pose proof (H (-1) (-1) ltac:(auto) ltac:(auto)).
  unfold Rabs. destruct (Rcase_abs a), (Rcase_abs b); lra.
Qed.

Lemma wide_bounds : forall tol a b, wide tol a b ->
  - ((1 - 3 * tol) / 2) < a < (1 - 3 * tol) / 2 /\ - ((1 - 3 * tol) / 2) < b < (1 - 3 * tol) / 2.
Proof.
  intros tol a b [A B]. pose proof (Rle_abs a). pose proof (Rle_abs (- a)).
  pose proof (Rle_abs b). pose proof (Rle_abs (- b)). rewrite Rabs_Ropp in *. lra.
Qed.

Lemma triangle_corner : forall p1 a1 b1 p2 a2 b2 tol m, 0 <= tol -> 0 < m <= / 100 ->
  let p3 := 1 - p1 - p2 in let a3 := - a1 - a2 in let b3 := - b1 - b2 in
  (forall x y, (x = -1 \/ x = 1) -> (y = -1 \/ y = 1) ->
     0 <= value p1 a1 b1 (x * (/ 2 - m)) (y * (/ 2 - m)) /\
     0 <= value p2 a2 b2 (x * (/ 2 - m)) (y * (/ 2 - m)) /\
     0 <= value p3 a3 b3 (x * (/ 2 - m)) (y * (/ 2 - m))) ->
  wide tol a1 b1 -> wide tol a2 b2 -> wide tol a3 b3 ->
  5 * (tol + m) < Rabs (a1 * b2 - b1 * a2) ->
  exists x y, (x = -1 \/ x = 1) /\ (y = -1 \/ y = 1) /\
    tol < value p1 a1 b1 (x / 2) (y / 2) /\ tol < value p2 a2 b2 (x / 2) (y / 2) /\
    tol < value p3 a3 b3 (x / 2) (y / 2).
Proof.
  intros p1 a1 b1 p2 a2 b2 tol m T M p3 a3 b3 H W1 W2 W3 D.
  assert (S : forall x y, value p1 a1 b1 x y + value p2 a2 b2 x y + value p3 a3 b3 x y = 1)
    by (intros; unfold value, p3, a3, b3; ring).
  assert (H1 : forall x y, (x = -1 \/ x = 1) -> (y = -1 \/ y = 1) ->
     0 <= value p1 a1 b1 (x * (/ 2 - m)) (y * (/ 2 - m)) <= 1).
  { intros x y X Y. pose proof (H x y X Y). pose proof (S (x * (/ 2 - m)) (y * (/ 2 - m))). lra. }
  assert (H2 : forall x y, (x = -1 \/ x = 1) -> (y = -1 \/ y = 1) ->
     0 <= value p2 a2 b2 (x * (/ 2 - m)) (y * (/ 2 - m)) <= 1).
  { intros x y X Y. pose proof (H x y X Y). pose proof (S (x * (/ 2 - m)) (y * (/ 2 - m))). lra. }
  assert (H3 : forall x y, (x = -1 \/ x = 1) -> (y = -1 \/ y = 1) ->
     0 <= value p3 a3 b3 (x * (/ 2 - m)) (y * (/ 2 - m)) <= 1).
  { intros x y X Y. pose proof (H x y X Y). pose proof (S (x * (/ 2 - m)) (y * (/ 2 - m))). lra. }
  destruct (four_near _ _ _ _ M H1) as (A1 & A2 & A3). destruct (four_near _ _ _ _ M H2) as (B1 & B2 & B3).
  destruct (four_near _ _ _ _ M H3) as (C1 & C2 & C3). clear H H1 H2 H3 S.
  assert (Q : forall x y, {tol < value p1 a1 b1 (x / 2) (y / 2) /\ tol < value p2 a2 b2 (x / 2) (y / 2) /\
      tol < value p3 a3 b3 (x / 2) (y / 2)} +
    {value p1 a1 b1 (x / 2) (y / 2) <= tol \/ value p2 a2 b2 (x / 2) (y / 2) <= tol \/
     value p3 a3 b3 (x / 2) (y / 2) <= tol}).
  { intros x y. destruct (Rlt_dec tol (value p1 a1 b1 (x / 2) (y / 2)));
    destruct (Rlt_dec tol (value p2 a2 b2 (x / 2) (y / 2)));
    destruct (Rlt_dec tol (value p3 a3 b3 (x / 2) (y / 2))); [left; auto|right; lra..]. }
  destruct (Q 1 1) as [Q1|Q1]; [exists 1, 1; tauto|].
  destruct (Q 1 (-1)) as [Q2|Q2]; [exists 1, (-1); tauto|].
  destruct (Q (-1) 1) as [Q3|Q3]; [exists (-1), 1; tauto|].
  destruct (Q (-1) (-1)) as [Q4|Q4]; [exists (-1), (-1); tauto|].
  exfalso. apply (Rlt_not_le _ _ D). clear D Q.
  destruct (wide_bounds _ _ _ W1) as [E1 E2]. destruct (wide_bounds _ _ _ W2) as [E3 E4].
  destruct (wide_bounds _ _ _ W3) as [E5 E6].
  pose proof (low_three p1 a1 b1 p2 a2 b2 tol (21 / 20 * m) T ltac:(lra)) as C. cbv zeta in C.
  fold p3 a3 b3 in C.
  assert (C' := C ltac:(intros x y X Y; specialize (A3 x y X Y); specialize (B3 x y X Y);
      specialize (C3 x y X Y); lra)
    ltac:(intros x y [->| ->] [->| ->]; assumption) E1 E2 E3 E4 E5 E6). clear C.
  set (n := 2 * tol + 2 * (21 / 20 * m)) in *. assert (N : 0 <= n) by (unfold n; lra).
  apply Rle_trans with (2 * n * (21 / 20)); [|unfold n; lra].
  clear A3 B3 C3 Q1 Q2 Q3 Q4 W1 W2 W3 E1 E2 E3 E4 E5 E6. clearbody n.
  assert (X1 : a1 * b2 - b1 * a2 = a2 * b3 - b2 * a3) by (unfold a3, b3; ring).
  assert (X2 : a1 * b2 - b1 * a2 = a3 * b1 - b3 * a1) by (unfold a3, b3; ring).
  clearbody p3 a3 b3.
  destruct C' as [[C E]|[[C E]|[[C E]|[[C E]|[[C E]|[[C E]|[[C E]|[[C E]|[C E]]]]]]]]].
  - replace (a1 * b2 - b1 * a2) with (a1 * b2 - a2 * b1) by ring. apply cross_small; lra.
  - rewrite X1. replace (a2 * b3 - b2 * a3) with (a2 * b3 - a3 * b2) by ring. apply cross_small; lra.
  - rewrite X2. replace (a3 * b1 - b3 * a1) with (a3 * b1 - a1 * b3) by ring. apply cross_small; lra.
  - apply cross_small; lra.
  - rewrite X2. apply cross_small; lra.
  - rewrite X1. apply cross_small; lra.
  - rewrite Rabs_minus_sym. apply cross_small; lra.
  - rewrite X2, Rabs_minus_sym. apply cross_small; lra.
  - rewrite X1, Rabs_minus_sym. apply cross_small; lra.
Qed.
