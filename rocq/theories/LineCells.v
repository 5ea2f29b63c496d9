(** The cells given by CalcLinePos in exact arithmetic. *)
From Coq Require Import Reals ZArith List Bool Lra Lia Psatz.
From Verif Require Import Outcome Flt FltR FltRFacts State ModelTypes ModelGeometry ModelBodyPos
  ModelRaster SpecGeo GeoProofs LineProofs.
Import ListNotations.
Open Scope R_scope.

Lemma line_cell_eq : forall x y z,
  line_cell (K := FltR) x y z =
  if int_ok (zround x) && int_ok (zround y) && int_ok (zceil z)
  then Ok (zround x, zround y, zceil z) else UB BadCast.
Proof.
  intros x y z. unfold line_cell. rred. rewrite !d_int_IZR, s_int_IZR.
  destruct (int_ok (zround x)); cbn [bind andb]; [|reflexivity].
  destruct (int_ok (zround y)); cbn [bind andb]; [|reflexivity].
  destruct (int_ok (zceil z)); reflexivity.
Qed.

(** ** One axis *)
Lemma span_up : forall a b, a < b -> span a b = b - a.
Proof. intros a b H. rewrite span_eq, Rabs_right; lra. Qed.
Lemma span_down : forall a b, b < a -> span a b = a - b.
Proof. intros a b H. rewrite span_eq, Rabs_left; lra. Qed.
Lemma crossings_le : forall o d k, (1 <= k <= crossings o d)%Z -> o + IZR k - 1 < d.
Proof.
  intros o d k H. pose proof (proj2 (crossings_lt o d (k - 1) ltac:(lia)) ltac:(lia)) as E.
  rewrite minus_IZR in E. lra.
Qed.

(** Bounds valid for any two points. *)
Lemma axis_xy : forall a b k,
  (0 <= k <= crossings (off_xy (up_ a b) a) (span a b))%Z ->
  Rmin a b - 1 < IZR (zround (shifted (up_ a b) a k)) < Rmax a b + 1.
Proof.
  intros a b k H. pose proof tiny_pos as T.
  destruct (Z.eq_dec k 0) as [->|K].
  { unfold shifted. rewrite Rmult_0_r, Rplus_0_r. pose proof (zround_spec a).
    pose proof (Rmin_l a b). pose proof (Rmax_l a b). lra. }
  assert (D : off_xy (up_ a b) a + IZR k - 1 < span a b) by (apply crossings_le; lia).
  assert (K1 : 1 <= IZR k) by (apply IZR_le; lia).
  destruct (half_integer_dec a) as [Hh|Hh].
  - rewrite (off_xy_half _ a Hh) in D.
    destruct (up_cases a b) as [[U L]|[U L]]; rewrite ?U in D; rewrite U; clear H; unfold shifted, sgn.
    + rewrite Rmin_left, Rmax_right by lra. rewrite span_up in D by lra.
      pose proof (zround_spec (a + 1 * IZR k)). lra.
    + rewrite Rmin_right, Rmax_left by lra. pose proof (zround_spec (a + -1 * IZR k)).
      destruct (Req_dec a b) as [->|E]; [rewrite span_same in D; lra|].
      rewrite span_down in D by lra. lra.
  - rewrite (off_xy_eq _ a Hh) in D. pose proof (zround_strict a Hh) as Z0.
    destruct (up_cases a b) as [[U L]|[U L]]; rewrite ?U in D; rewrite U; clear H; unfold shifted, sgn.
    + rewrite Rmin_left, Rmax_right by lra. rewrite span_up in D by lra.
      rewrite Rmult_1_l, zround_shift, plus_IZR by auto. lra.
    + replace (a + -1 * IZR k) with (a + IZR (- k)) by (rewrite opp_IZR; ring).
      rewrite zround_shift, plus_IZR, opp_IZR by auto.
      rewrite Rmin_right, Rmax_left by lra.
      destruct (Req_dec a b) as [->|E]; [rewrite span_same in D; lra|].
      rewrite span_down in D by lra. lra.
Qed.
Lemma axis_z : forall a b k,
  (0 <= k <= crossings (off_z (up_ a b) a) (span a b))%Z ->
  Rmin a b - tiny < IZR (zceil (shifted (up_ a b) a k)) < Rmax a b + 1.
Proof.
  intros a b k H. pose proof tiny_pos as T. pose proof (zceil_spec a) as C.
  destruct (Z.eq_dec k 0) as [->|K].
  { unfold shifted. rewrite Rmult_0_r, Rplus_0_r.
    pose proof (Rmin_l a b). pose proof (Rmax_l a b). lra. }
  assert (D : off_z (up_ a b) a + IZR k - 1 < span a b) by (apply crossings_le; lia).
  assert (K1 : 1 <= IZR k) by (apply IZR_le; lia).
  assert (S : zceil (shifted (up_ a b) a k) = (zceil a + (if up_ a b then k else - k))%Z).
  { rewrite <- zceil_shift. f_equal. unfold shifted, sgn. destruct (up_ a b); rewrite ?opp_IZR; ring. }
  rewrite S, plus_IZR. clear S.
  destruct (integer_dec a) as [[n ->]|Hh].
  - rewrite off_z_int in D. rewrite zceil_IZR in *.
    destruct (up_cases (IZR n) b) as [[U L]|[U L]]; rewrite ?U in D; rewrite U; clear H; rewrite ?opp_IZR.
    + rewrite Rmin_left, Rmax_right by lra. rewrite span_up in D by lra. lra.
    + rewrite Rmin_right, Rmax_left by lra.
      destruct (Req_dec (IZR n) b) as [<-|E]; [rewrite span_same in D; lra|].
      rewrite span_down in D by lra. lra.
  - rewrite (off_z_eq _ a Hh) in D.
    destruct (up_cases a b) as [[U L]|[U L]]; rewrite ?U in D; rewrite U; clear H; rewrite ?opp_IZR.
    + rewrite Rmin_left, Rmax_right by lra. rewrite span_up in D by lra. lra.
    + rewrite Rmin_right, Rmax_left by lra.
      destruct (Req_dec a b) as [->|E]; [rewrite span_same in D; lra|].
      rewrite span_down in D by lra. lra.
Qed.

(** The cell holding a coordinate, when the start is not on a boundary. *)
Lemma shift_xy : forall up a k, ~ half_integer a ->
  zround (shifted up a k) = (zround a + (if up then k else - k))%Z.
Proof.
  intros up a k H. rewrite <- zround_shift by auto. f_equal. unfold shifted, sgn.
  destruct up; rewrite ?opp_IZR; ring.
Qed.
Lemma shift_z : forall up a k, zceil (shifted up a k) = (zceil a + (if up then k else - k))%Z.
Proof.
  intros up a k. rewrite <- zceil_shift. f_equal. unfold shifted, sgn.
  destruct up; rewrite ?opp_IZR; ring.
Qed.

Definition along (a b s : R) : R := a + s * (b - a).
Lemma between_xy : forall a b k s, ~ half_integer a -> 0 <= s <= 1 ->
  between (off_xy (up_ a b) a) (span a b) k s ->
  Rabs (along a b s - IZR (zround (shifted (up_ a b) a k))) <= / 2 + tiny.
Proof.
  intros a b k s H S. unfold between, along. rewrite shift_xy, off_xy_eq, plus_IZR by auto.
  pose proof tiny_pos.
  destruct (up_cases a b) as [[U L]|[U L]]; rewrite U, ?opp_IZR; intros B.
  - rewrite span_up in B by lra. apply Rabs_le. lra.
  - destruct (Req_dec a b) as [->|E].
    + rewrite span_same in B. apply Rabs_le. nra.
    + rewrite span_down in B by lra. apply Rabs_le. lra.
Qed.
Lemma between_z : forall a b k s, ~ integer a -> 0 <= s <= 1 ->
  between (off_z (up_ a b) a) (span a b) k s ->
  IZR (zceil (shifted (up_ a b) a k)) - 1 - tiny <= along a b s
  <= IZR (zceil (shifted (up_ a b) a k)) + tiny.
Proof.
  intros a b k s H S. unfold between, along. rewrite shift_z, off_z_eq, plus_IZR by auto.
  pose proof tiny_pos.
  destruct (up_cases a b) as [[U L]|[U L]]; rewrite U, ?opp_IZR; intros B.
  - rewrite span_up in B by lra. lra.
  - destruct (Req_dec a b) as [->|E].
    + rewrite span_same in B. nra.
    + rewrite span_down in B by lra. lra.
Qed.

(** A coordinate is clear when it is not on a boundary; when both ends have the same
    coordinate, the code moves it down by [tiny]. *)
Definition clear_xy (a b : R) : Prop :=
  ~ half_integer a /\ ~ half_integer b /\
  (a = b -> tiny <= a - (IZR (zround a) - / 2)).
Definition clear_z (a b : R) : Prop :=
  ~ integer a /\ ~ integer b /\ (a = b -> tiny <= a - (IZR (zceil a) - 1)).

Lemma crossings_xy : forall a b, clear_xy a b ->
  crossings (off_xy (up_ a b) a) (span a b) = Z.abs (zround b - zround a).
Proof.
  intros a b (Ha & Hb & Hs). rewrite off_xy_eq by auto. unfold crossings.
  pose proof (zround_strict a Ha). pose proof (zround_strict b Hb).
  destruct (up_cases a b) as [[U L]|[U L]]; rewrite U.
  - rewrite span_up by lra.
    pose proof (zround_mono a b ltac:(lra)).
    rewrite (zceil_unique _ (zround b - zround a)); [lia|]. rewrite minus_IZR; lra.
  - pose proof (zround_mono b a ltac:(lra)).
    destruct (Req_dec a b) as [E|E].
    + subst b. rewrite span_same, Z.sub_diag. specialize (Hs eq_refl).
      assert (zceil (tiny - (a - IZR (zround a) + / 2)) <= 0)%Z; [|lia].
      rewrite <- (zceil_IZR 0). apply zceil_mono. lra.
    + rewrite span_down by lra.
      rewrite (zceil_unique _ (zround a - zround b)); [lia|]. rewrite minus_IZR; lra.
Qed.
Lemma zceil_strict : forall a, ~ integer a -> IZR (zceil a) - 1 < a < IZR (zceil a).
Proof.
  intros a H. destruct (zceil_spec a) as [L [U|U]]; [lra|]. exfalso; apply H; eexists; eauto.
Qed.
Lemma crossings_z : forall a b, clear_z a b ->
  crossings (off_z (up_ a b) a) (span a b) = Z.abs (zceil b - zceil a).
Proof.
  intros a b (Ha & Hb & Hs). rewrite off_z_eq by auto. unfold crossings.
  pose proof (zceil_strict a Ha). pose proof (zceil_strict b Hb).
  destruct (up_cases a b) as [[U L]|[U L]]; rewrite U.
  - rewrite span_up by lra.
    pose proof (zceil_mono a b ltac:(lra)).
    rewrite (zceil_unique _ (zceil b - zceil a)); [lia|]. rewrite minus_IZR; lra.
  - pose proof (zceil_mono b a ltac:(lra)).
    destruct (Req_dec a b) as [E|E].
    + subst b. rewrite span_same, Z.sub_diag. specialize (Hs eq_refl).
      assert (zceil (tiny - (a - IZR (zceil a) + 1)) <= 0)%Z; [|lia].
      rewrite <- (zceil_IZR 0). apply zceil_mono. lra.
    + rewrite span_down by lra.
      rewrite (zceil_unique _ (zceil a - zceil b)); [lia|]. rewrite minus_IZR; lra.
Qed.

Lemma end_xy : forall a b, clear_xy a b ->
  zround (shifted (up_ a b) a (Z.abs (zround b - zround a))) = zround b.
Proof.
  intros a b H. rewrite shift_xy by apply H.
  destruct (up_cases a b) as [[U L]|[U L]]; rewrite U.
  - pose proof (zround_mono a b ltac:(lra)). lia.
  - pose proof (zround_mono b a ltac:(lra)). lia.
Qed.
Lemma end_z : forall a b,
  zceil (shifted (up_ a b) a (Z.abs (zceil b - zceil a))) = zceil b.
Proof.
  intros a b. rewrite shift_z.
  destruct (up_cases a b) as [[U L]|[U L]]; rewrite U.
  - pose proof (zceil_mono a b ltac:(lra)). lia.
  - pose proof (zceil_mono b a ltac:(lra)). lia.
Qed.

(** ** The list of cells *)
Definition cell_of (p : rvec) : cell3 := (zround (vx p), zround (vy p), zceil (vz p)).
Definition line_at (p q : rvec) (k : count3) : cell3 :=
  let '(kx, ky, kz) := k in
  (zround (shifted (up_ (vx p) (vx q)) (vx p) kx),
   zround (shifted (up_ (vy p) (vy q)) (vy p) ky),
   zceil (shifted (up_ (vz p) (vz q)) (vz p) kz)).

(** Coordinates between which everything is an int. *)
Definition int_range (x : R) : Prop := -2147483647 <= x <= 2147483646.
Definition int_vec (p : rvec) : Prop := int_range (vx p) /\ int_range (vy p) /\ int_range (vz p).

(** Bounds of a cell by two points. *)
Definition cell_near (p q : rvec) (c : cell3) : Prop :=
  let '(i, j, k) := c in
  Rmin (vx p) (vx q) - 1 < IZR i < Rmax (vx p) (vx q) + 1 /\
  Rmin (vy p) (vy q) - 1 < IZR j < Rmax (vy p) (vy q) + 1 /\
  Rmin (vz p) (vz q) - tiny < IZR k < Rmax (vz p) (vz q) + 1.

Lemma between_int : forall lo hi i, int_range lo -> int_range hi ->
  lo - 1 < IZR i < hi + 1 -> int_ok i = true.
Proof.
  intros lo hi i [] [] [L U]. apply int_ok_range.
  assert (-2147483648 < i)%Z by (apply lt_IZR; lra).
  assert (i < 2147483647)%Z by (apply lt_IZR; lra). lia.
Qed.
Lemma int_range_min : forall a b, int_range a -> int_range b -> int_range (Rmin a b).
Proof. intros a b; unfold Rmin; destruct (Rle_dec a b); auto. Qed.
Lemma int_range_max : forall a b, int_range a -> int_range b -> int_range (Rmax a b).
Proof. intros a b; unfold Rmax; destruct (Rle_dec a b); auto. Qed.

Lemma line_at_near : forall p q k, le3 (0, 0, 0)%Z k -> le3 k (n_x p q, n_y p q, n_z p q) ->
  cell_near p q (line_at p q k).
Proof.
  intros p q [[kx ky] kz] L U. simpl in L, U. unfold line_at, cell_near.
  split; [|split].
  - apply axis_xy. unfold n_x in U. lia.
  - apply axis_xy. unfold n_y in U. lia.
  - apply axis_z. unfold n_z in U. lia.
Qed.
Lemma line_cast_ok : forall p q k, int_vec p -> int_vec q -> cell_near p q (line_at p q k) ->
  line_cast p q k = Ok (line_at p q k).
Proof.
  intros p q [[kx ky] kz] (Px & Py & Pz) (Qx & Qy & Qz) (Bx & By & Bz). unfold line_cast, cast3, line_at.
  rewrite line_cell_eq. pose proof tiny_pos.
  rewrite (between_int _ _ _ (int_range_min _ _ Px Qx) (int_range_max _ _ Px Qx)) by apply Bx.
  rewrite (between_int _ _ _ (int_range_min _ _ Py Qy) (int_range_max _ _ Py Qy)) by apply By.
  rewrite (between_int _ _ _ (int_range_min _ _ Pz Qz) (int_range_max _ _ Pz Qz)) by lra.
  reflexivity.
Qed.

(** The fuel used by a line; the code has no bound. *)
Definition line_fuel (p q : rvec) : Z := (n_x p q + n_y p q + n_z p q)%Z.

Lemma crossings_span : forall o a b, 0 < o -> (crossings o (span a b) <= zceil (Rabs (b - a)) + 1)%Z.
Proof.
  intros o a b O. unfold crossings. pose proof (Rabs_pos (b - a)) as P.
  pose proof (zceil_spec (Rabs (b - a))) as C.
  assert (0 <= zceil (Rabs (b - a)))%Z by (apply le_IZR; lra).
  enough (zceil (span a b - o) <= zceil (Rabs (b - a)) + 1)%Z by lia.
  rewrite <- zceil_shift. apply zceil_mono. unfold span. rewrite no_zero_eq.
  pose proof tiny_pos. destruct (Req_EM_T (b - a) 0) as [->|]; [|lra].
  rewrite Rabs_R0, Rabs_right; lra.
Qed.

(** What CalcLinePos gives: cells within one cell of the box of the two points, each
    reached from the previous one by one step along one axis. *)
Lemma line_spec : forall fuel p q, int_vec p -> int_vec q ->
  (line_fuel p q <= Z.of_nat fuel)%Z ->
  exists ks, walk (0, 0, 0)%Z ks (n_x p q, n_y p q, n_z p q) /\
    rline fuel p q = Ok (map (line_at p q) ((0, 0, 0)%Z :: ks)) /\
    (forall k, In k ((0, 0, 0)%Z :: ks) -> cell_near p q (line_at p q k)) /\
    (forall k, In k ((0, 0, 0)%Z :: ks) -> exists s, 0 <= s <= 1 /\ at_fraction p q k s) /\
    (forall s, 0 <= s <= 1 -> exists k, In k ((0, 0, 0)%Z :: ks) /\ at_fraction p q k s).
Proof.
  intros fuel p q Ip Iq F.
  destruct (line_walk fuel p q F) as (ks & W & E & B1 & B2).
  destruct (walk_bounds _ _ _ W) as [_ WB].
  assert (N : forall k, In k ((0, 0, 0)%Z :: ks) -> cell_near p q (line_at p q k)).
  { intros k Hk. destruct (WB k Hk). apply line_at_near; auto. }
  exists ks. split; [auto|]. split; [|auto].
  rewrite E. apply mapm_ok. intros k Hk. apply line_cast_ok; auto.
Qed.

(** The cell [c] holds a point within [tiny] of the point [p]. *)
Definition cell_holds (c : cell3) (p : rvec) : Prop :=
  let '(i, j, k) := c in
  Rabs (vx p - IZR i) <= / 2 + tiny /\ Rabs (vy p - IZR j) <= / 2 + tiny /\
  IZR k - 1 - tiny <= vz p <= IZR k + tiny.
Definition point_at (p q : rvec) (s : R) : rvec :=
  mkVec (along (vx p) (vx q) s) (along (vy p) (vy q) s) (along (vz p) (vz q) s).
Definition off_border (p : rvec) : Prop :=
  ~ half_integer (vx p) /\ ~ half_integer (vy p) /\ ~ integer (vz p).

Lemma at_fraction_holds : forall p q k s, off_border p -> 0 <= s <= 1 ->
  at_fraction p q k s -> cell_holds (line_at p q k) (point_at p q s).
Proof.
  intros p q [[kx ky] kz] s (Ox & Oy & Oz) S (Bx & By & Bz). unfold cell_holds, line_at, point_at.
  cbn [vx vy vz]. split; [|split].
  - apply between_xy; auto.
  - apply between_xy; auto.
  - apply between_z; auto.
Qed.

(** Two cells next to each other along one axis. *)
Definition next_cell (c d : cell3) : Prop :=
  let '(i, j, k) := c in let '(i', j', k') := d in
  (Z.abs (i' - i) + Z.abs (j' - j) + Z.abs (k' - k) = 1)%Z.
Inductive chain {X} (P : X -> X -> Prop) : list X -> Prop :=
| chain_nil : chain P []
| chain_one : forall x, chain P [x]
| chain_cons : forall x y l, P x y -> chain P (y :: l) -> chain P (x :: y :: l).

Lemma line_chain : forall p q, ~ half_integer (vx p) -> ~ half_integer (vy p) ->
  forall a ks b, walk a ks b -> chain next_cell (map (line_at p q) (a :: ks)).
Proof.
  intros p q Hx Hy a ks b W.
  induction W; cbn [map] in *; [constructor|..]; (constructor; [|assumption]);
    unfold line_at, next_cell; rewrite !shift_xy, !shift_z by auto;
    destruct (up_ (vx p) (vx q)), (up_ (vy p) (vy q)), (up_ (vz p) (vz q)); lia.
Qed.

Lemma walk_last : forall a ks b d, walk a ks b -> last (a :: ks) d = b.
Proof.
  intros a ks b d W. induction W; [reflexivity|..];
    match goal with |- last (_ :: ?x :: ?l) _ = _ => exact IHW end.
Qed.

Lemma last_map : forall (X Y : Type) (f : X -> Y) l x y z,
  last (map f (x :: l)) y = f (last (x :: l) z).
Proof.
  intros X Y f l. induction l as [|u l IH]; intros x y z; [reflexivity|]. exact (IH u y z).
Qed.

Definition clear_line (p q : rvec) : Prop :=
  clear_xy (vx p) (vx q) /\ clear_xy (vy p) (vy q) /\ clear_z (vz p) (vz q).

Lemma line_at_0 : forall p q, line_at p q (0, 0, 0)%Z = cell_of p.
Proof.
  intros p q. unfold line_at, cell_of, shifted. rewrite !Rmult_0_r, !Rplus_0_r. reflexivity.
Qed.

Definition cell_dist (c d : cell3) : Z :=
  let '(i, j, k) := c in let '(i', j', k') := d in
  (Z.abs (i' - i) + Z.abs (j' - j) + Z.abs (k' - k))%Z.

Lemma line_fuel_clear : forall p q, clear_line p q ->
  line_fuel p q = cell_dist (cell_of p) (cell_of q).
Proof.
  intros p q (Cx & Cy & Cz). unfold line_fuel, n_x, n_y, n_z, cell_dist, cell_of.
  rewrite !crossings_xy, crossings_z by auto. reflexivity.
Qed.

(** With no coordinate on a boundary. *)
Lemma line_exact : forall fuel p q, int_vec p -> int_vec q -> clear_line p q ->
  (cell_dist (cell_of p) (cell_of q) <= Z.of_nat fuel)%Z ->
  exists l, rline fuel p q = Ok l /\
    hd_error l = Some (cell_of p) /\ (forall d, last l d = cell_of q) /\
    Z.of_nat (length l) = (cell_dist (cell_of p) (cell_of q) + 1)%Z /\
    chain next_cell l /\
    (forall c, In c l -> exists s, 0 <= s <= 1 /\ cell_holds c (point_at p q s)) /\
    (forall s, 0 <= s <= 1 -> exists c, In c l /\ cell_holds c (point_at p q s)).
Proof.
  intros fuel p q Ip Iq C F. pose proof (line_fuel_clear p q C) as LF. rewrite <- LF in F.
  destruct (line_spec fuel p q Ip Iq F) as (ks & W & E & _ & B1 & B2).
  destruct C as (Cx & Cy & Cz).
  assert (O : off_border p) by (split; [apply Cx|split; [apply Cy|apply Cz]]).
  exists (map (line_at p q) ((0, 0, 0)%Z :: ks)).
  split; [auto|]. split; [cbn; f_equal; apply line_at_0|]. split; [|split; [|split; [|split]]].
  - intros d.
    rewrite (last_map _ _ _ _ _ _ (0, 0, 0)%Z), (walk_last _ _ _ _ W). unfold line_at, cell_of, n_x, n_y, n_z.
    rewrite !crossings_xy, crossings_z, !end_xy, end_z by auto. reflexivity.
  - rewrite map_length. cbn [length]. pose proof (walk_length _ _ _ W) as WL. cbn in WL.
    rewrite <- LF. unfold line_fuel. lia.
  - eapply line_chain; [apply Cx|apply Cy|exact W].
  - intros c Hc. apply in_map_iff in Hc. destruct Hc as (k & <- & Hk).
    destruct (B1 k Hk) as (s & S & A). exists s; split; auto. apply at_fraction_holds; auto.
  - intros s S. destruct (B2 s S) as (k & Hk & A). exists (line_at p q k).
    split; [apply in_map; auto|]. apply at_fraction_holds; auto.
Qed.
