(** CalcLinePos in exact arithmetic. *)
From Coq Require Import Reals ZArith List Bool Lra Lia Psatz.
From Verif Require Import Outcome Flt FltR FltRFacts State ModelTypes ModelGeometry ModelBodyPos
  ModelRaster SpecGeo GeoProofs.
Import ListNotations.
Open Scope R_scope.

(** Apply a function that may fail to each element. *)
Fixpoint mapm {X Y} (f : X -> outcome Y) (l : list X) : outcome (list Y) :=
  match l with
  | [] => Ok []
  | x :: l' => y <- f x ;; r <- mapm f l' ;; Ok (y :: r)
  end.
Lemma mapm_ok : forall X Y (f : X -> outcome Y) g l,
  (forall x, In x l -> f x = Ok (g x)) -> mapm f l = Ok (map g l).
Proof.
  induction l as [|x l IH]; intros H; [reflexivity|].
  simpl. rewrite (H x) by (left; auto). simpl. rewrite IH by (intros; apply H; right; auto).
  reflexivity.
Qed.
Lemma mapm_inv : forall X Y (f : X -> outcome Y) l r, mapm f l = Ok r ->
  length r = length l /\ forall n y d, nth_error r n = Some y ->
    exists x, nth_error l n = Some x /\ f x = Ok y /\ nth n l d = x.
Proof.
  induction l as [|x l IH]; intros r H; simpl in H.
  - injection H; intros; subst. split; auto. intros [|n] y d E; discriminate.
  - destruct (f x) as [y0| |] eqn:E; try discriminate. simpl in H.
    destruct (mapm f l) as [r0| |] eqn:E0; try discriminate. simpl in H.
    injection H; intros; subst. destruct (IH r0 eq_refl) as [L N]. split; [simpl; auto|].
    intros [|n] y d Hn; simpl in *.
    + injection Hn; intros; subst. eauto.
    + apply N, Hn.
Qed.
Lemma mapm_in : forall X Y (f : X -> outcome Y) l r y, mapm f l = Ok r -> In y r ->
  exists x, In x l /\ f x = Ok y.
Proof.
  induction l as [|x l IH]; intros r y H Hy; simpl in H.
  - injection H; intros; subst. destruct Hy.
  - destruct (f x) as [y0| |] eqn:E; try discriminate. simpl in H.
    destruct (mapm f l) as [r0| |] eqn:E0; try discriminate. simpl in H.
    injection H; intros; subst. destruct Hy as [<-|Hy].
    + exists x; split; [left|]; auto.
    + destruct (IH r0 y eq_refl Hy) as (x' & Hx & F). exists x'; split; [right|]; auto.
Qed.

(** A staircase: each element adds one to one of the three counts. *)
Definition count3 : Type := (Z * Z * Z)%type.
Inductive walk : count3 -> list count3 -> count3 -> Prop :=
| walk_end : forall k, walk k [] k
| walk_x : forall x y z l e, walk (x + 1, y, z)%Z l e -> walk (x, y, z) ((x + 1, y, z)%Z :: l) e
| walk_y : forall x y z l e, walk (x, y + 1, z)%Z l e -> walk (x, y, z) ((x, y + 1, z)%Z :: l) e
| walk_z : forall x y z l e, walk (x, y, z + 1)%Z l e -> walk (x, y, z) ((x, y, z + 1)%Z :: l) e.

Definition le3 (a b : count3) : Prop :=
  let '(x, y, z) := a in let '(x', y', z') := b in (x <= x' /\ y <= y' /\ z <= z')%Z.
Lemma walk_bounds : forall a l b, walk a l b ->
  le3 a b /\ forall k, In k (a :: l) -> le3 a k /\ le3 k b.
Proof.
  intros a l b H. induction H as [[[x y] z]|x y z l e H [IH1 IH2]|x y z l e H [IH1 IH2]|x y z l e H [IH1 IH2]].
  - split; [simpl; lia|]. intros k [<-|[]]; simpl; lia.
  - destruct e as [[ex ey] ez]. split; [simpl in *; lia|].
    intros k [<-|Hk]; [simpl in *; lia|]. destruct (IH2 k Hk) as [L U].
    destruct k as [[kx ky] kz]; simpl in *; lia.
  - destruct e as [[ex ey] ez]. split; [simpl in *; lia|].
    intros k [<-|Hk]; [simpl in *; lia|]. destruct (IH2 k Hk) as [L U].
    destruct k as [[kx ky] kz]; simpl in *; lia.
  - destruct e as [[ex ey] ez]. split; [simpl in *; lia|].
    intros k [<-|Hk]; [simpl in *; lia|]. destruct (IH2 k Hk) as [L U].
    destruct k as [[kx ky] kz]; simpl in *; lia.
Qed.
Lemma walk_length : forall a l b, walk a l b ->
  let '(x, y, z) := a in let '(x', y', z') := b in
  Z.of_nat (length l) = (x' - x + (y' - y) + (z' - z))%Z.
Proof.
  intros a l b H. induction H as [[[x y] z]|x y z l [[x' y'] z'] H IH|x y z l [[x' y'] z'] H IH|x y z l [[x' y'] z'] H IH];
    [simpl; lia|..]; cbn [length]; lia.
Qed.

(** ** The loop *)

(** Number of cell boundaries met: those at distances o, o+1, ... below d. *)
Definition crossings (o d : R) : Z := Z.max 0 (zceil (d - o)).
Lemma crossings_lt : forall o d k, (0 <= k)%Z -> (o + IZR k < d <-> (k < crossings o d)%Z).
Proof.
  intros o d k Hk. unfold crossings. destruct (zceil_spec (d - o)) as [L U]. split; intros H.
  - assert (k < zceil (d - o))%Z by (apply lt_IZR; lra). lia.
  - assert (K : (k < zceil (d - o))%Z) by lia.
    assert (K' : (k + 1 <= zceil (d - o))%Z) by lia. apply IZR_le in K'. rewrite plus_IZR in K'. lra.
Qed.
Lemma crossings_nonneg : forall o d, (0 <= crossings o d)%Z.
Proof. intros; unfold crossings; lia. Qed.

Definition sgn (up : bool) : R := if up then 1 else -1.
Lemma toward_eq : forall up x, toward (K := FltR) up x = x + sgn up.
Proof. intros [] x; reflexivity. Qed.

(** Position after the given numbers of crossings, and time of the next one. *)
Definition shifted (up : bool) (x : R) (k : Z) : R := x + sgn up * IZR k.

Section Loop.
  Variables (ux uy uz : bool).          (* directions *)
  Variables (ox oy oz : R).             (* offsets to the first boundary *)
  Variables (dx dy dz : R).             (* lengths, positive *)
  Variables (ex ey ez norm : R).        (* lengths along the line *)
  Variables (x y z : R).                (* first point *)
  Hypothesis Hdx : 0 < dx.
  Hypothesis Hdy : 0 < dy.
  Hypothesis Hdz : 0 < dz.
  Hypothesis Hn : 0 < norm.
  Hypothesis Hex : dx * ex = norm.
  Hypothesis Hey : dy * ey = norm.
  Hypothesis Hez : dz * ez = norm.

  Let nx := crossings ox dx.
  Let ny := crossings oy dy.
  Let nz := crossings oz dz.

  Definition cast3 (k : count3) : outcome cell3 :=
    let '(kx, ky, kz) := k in
    line_cell (K := FltR) (shifted ux x kx) (shifted uy y ky) (shifted uz z kz).

  Lemma time_lt : forall o d e k, 0 < d -> d * e = norm -> (0 <= k)%Z ->
    Rltb ((o + IZR k) * e) norm = (k <? crossings o d)%Z.
  Proof.
    clear - Hn. intros o d e k Hd He Hk.
    assert (E : 0 < e) by (apply (Rmult_lt_reg_l d); lra).
    destruct (k <? crossings o d)%Z eqn:C.
    - apply Z.ltb_lt, crossings_lt in C; auto. apply Rltb_lt. rewrite <- He. nra.
    - apply Z.ltb_ge in C. apply Rltb_ge. rewrite <- He.
      assert (~ o + IZR k < d) by (rewrite crossings_lt by auto; lia). nra.
  Qed.

  (** At time [t] the line is between the last and the next boundary. *)
  Definition in_box (k : count3) (t : R) : Prop :=
    let '(kx, ky, kz) := k in
    (ox + IZR kx - 1) * ex <= t <= (ox + IZR kx) * ex /\
    (oy + IZR ky - 1) * ey <= t <= (oy + IZR ky) * ey /\
    (oz + IZR kz - 1) * ez <= t <= (oz + IZR kz) * ez.

  Lemma loop_walk : forall fuel kx ky kz,
    (0 <= kx <= nx)%Z -> (0 <= ky <= ny)%Z -> (0 <= kz <= nz)%Z ->
    (nx - kx + (ny - ky) + (nz - kz) <= Z.of_nat fuel)%Z ->
    exists ks, walk (kx, ky, kz) ks (nx, ny, nz) /\
      line_loop (K := FltR) fuel ux uy uz ex ey ez norm
        (shifted ux x kx) (shifted uy y ky) (shifted uz z kz)
        ((ox + IZR kx) * ex) ((oy + IZR ky) * ey) ((oz + IZR kz) * ez)
      = mapm cast3 ks /\
      forall t0, in_box (kx, ky, kz) t0 ->
        (forall k, In k ks -> exists t, t0 <= t <= norm /\ in_box k t) /\
        (forall t, t0 <= t <= norm -> exists k, In k ((kx, ky, kz) :: ks) /\ in_box k t).
  Proof.
    assert (Ex : 0 < ex) by (apply (Rmult_lt_reg_l dx); lra).
    assert (Ey : 0 < ey) by (apply (Rmult_lt_reg_l dy); lra).
    assert (Ez : 0 < ez) by (apply (Rmult_lt_reg_l dz); lra).
    assert (End : exists ks, walk (nx, ny, nz) ks (nx, ny, nz) /\ Ok [] = mapm cast3 ks /\
      forall t0, in_box (nx, ny, nz) t0 ->
        (forall k, In k ks -> exists t, t0 <= t <= norm /\ in_box k t) /\
        (forall t, t0 <= t <= norm -> exists k, In k ((nx, ny, nz) :: ks) /\ in_box k t)).
    { exists []; split; [constructor|split; [reflexivity|]].
      intros t0 B0. split; [intros k []|]. intros t Ht. exists (nx, ny, nz).
      split; [left; auto|]. simpl in *.
      assert (Fin : forall o d e, 0 < d -> d * e = norm -> norm <= (o + IZR (crossings o d)) * e).
      { intros o d e Hd He. apply Rltb_ge. rewrite (time_lt o d) by (auto using crossings_nonneg).
        apply Z.ltb_irrefl. }
      pose proof (Fin ox dx ex Hdx Hex). pose proof (Fin oy dy ey Hdy Hey).
      pose proof (Fin oz dz ez Hdz Hez). fold nx in H. fold ny in H0. fold nz in H1. lra. }
    induction fuel as [|fuel IH]; intros kx ky kz Kx Ky Kz F.
    - assert (kx = nx /\ ky = ny /\ kz = nz) as (-> & -> & ->) by lia.
      cbn [line_loop]; rred.
      rewrite (time_lt ox dx), (time_lt oy dy), (time_lt oz dz) by (auto; lia).
      fold nx ny nz. rewrite !Z.ltb_irrefl. exact End.
    - cbn [line_loop]; rred.
      rewrite (time_lt ox dx), (time_lt oy dy), (time_lt oz dz) by (auto; lia).
      fold nx ny nz.
      destruct ((kx <? nx) || (ky <? ny) || (kz <? nz))%Z eqn:Any.
      2: { rewrite !orb_false_iff, !Z.ltb_ge in Any.
           assert (kx = nx /\ ky = ny /\ kz = nz) as (-> & -> & ->) by lia. exact End. }
      set (tx := (ox + IZR kx) * ex) in *. set (ty := (oy + IZR ky) * ey) in *.
      set (tz := (oz + IZR kz) * ez) in *.
      assert (Tx : tx < norm <-> (kx < nx)%Z).
      { rewrite <- Rltb_lt. unfold tx. rewrite (time_lt ox dx) by (auto; lia). apply Z.ltb_lt. }
      assert (Ty : ty < norm <-> (ky < ny)%Z).
      { rewrite <- Rltb_lt. unfold ty. rewrite (time_lt oy dy) by (auto; lia). apply Z.ltb_lt. }
      assert (Tz : tz < norm <-> (kz < nz)%Z).
      { rewrite <- Rltb_lt. unfold tz. rewrite (time_lt oz dz) by (auto; lia). apply Z.ltb_lt. }
      assert (Some1 : tx < norm \/ ty < norm \/ tz < norm).
      { rewrite !orb_true_iff, !Z.ltb_lt in Any. tauto. }
      assert (Sx : toward (K := FltR) ux (shifted ux x kx) = shifted ux x (kx + 1)).
      { rewrite toward_eq. unfold shifted. rewrite plus_IZR. rred; ring. }
      assert (Sy : toward (K := FltR) uy (shifted uy y ky) = shifted uy y (ky + 1)).
      { rewrite toward_eq. unfold shifted. rewrite plus_IZR. rred; ring. }
      assert (Sz : toward (K := FltR) uz (shifted uz z kz) = shifted uz z (kz + 1)).
      { rewrite toward_eq. unfold shifted. rewrite plus_IZR. rred; ring. }
      assert (Nx : tx + ex = (ox + IZR (kx + 1)) * ex) by (unfold tx; rewrite plus_IZR; ring).
      assert (Ny : ty + ey = (oy + IZR (ky + 1)) * ey) by (unfold ty; rewrite plus_IZR; ring).
      assert (Nz : tz + ez = (oz + IZR (kz + 1)) * ez) by (unfold tz; rewrite plus_IZR; ring).
      assert (Px : (ox + IZR (kx + 1) - 1) * ex = tx) by (unfold tx; rewrite plus_IZR; ring).
      assert (Py : (oy + IZR (ky + 1) - 1) * ey = ty) by (unfold ty; rewrite plus_IZR; ring).
      assert (Pz : (oz + IZR (kz + 1) - 1) * ez = tz) by (unfold tz; rewrite plus_IZR; ring).
      assert (Combine : forall t1 k1 ks, t1 < norm -> t1 <= tx -> t1 <= ty -> t1 <= tz ->
        (t1 = tx \/ t1 = ty \/ t1 = tz) ->
        (forall t0, in_box (kx, ky, kz) t0 -> t0 <= t1 -> in_box k1 t1) ->
        (forall t0, in_box k1 t0 ->
          (forall k, In k ks -> exists t, t0 <= t <= norm /\ in_box k t) /\
          (forall t, t0 <= t <= norm -> exists k, In k (k1 :: ks) /\ in_box k t)) ->
        forall t0, in_box (kx, ky, kz) t0 ->
          (forall k, In k (k1 :: ks) -> exists t, t0 <= t <= norm /\ in_box k t) /\
          (forall t, t0 <= t <= norm ->
             exists k, In k ((kx, ky, kz) :: k1 :: ks) /\ in_box k t)).
      { intros t1 k1 ks L1 Lx Ly Lz Eq B1 R t0 B0.
        assert (Le : t0 <= t1).
        { unfold in_box in B0. fold tx ty tz in B0. destruct Eq as [->|[->| ->]]; lra. }
        specialize (B1 t0 B0 Le). destruct (R t1 B1) as [R1 R2]. split.
        - intros k [<-|Hk]; [exists t1; split; [lra|auto]|].
          destruct (R1 k Hk) as (t & Ht & Bt). exists t; split; [lra|auto].
        - intros t Ht. destruct (Rle_dec t t1) as [Le'|Gt'].
          + exists (kx, ky, kz); split; [left; auto|].
            unfold in_box in *. fold tx ty tz in B0 |- *. lra.
          + destruct (R2 t) as (k & Hk & Bk); [lra|]. exists k; split; [right; auto|auto]. }
      destruct (Rltb tx ty) eqn:Cxy; [destruct (Rltb tx tz) eqn:Cxz|destruct (Rltb ty tz) eqn:Cyz];
        rbool.
      + assert (kx < nx)%Z by (apply Tx; lra).
        destruct (IH (kx + 1)%Z ky kz) as (ks & W & E & B); try lia.
        exists ((kx + 1, ky, kz)%Z :: ks). split; [constructor; auto|split].
        * rewrite Sx, Nx. unfold ty, tz. rewrite E. reflexivity.
        * apply (Combine tx); auto; try lra.
          intros t0 B0 Le. unfold in_box in *. fold ty tz in B0 |- *. rewrite Px, <- Nx. lra.
      + assert (kz < nz)%Z by (apply Tz; lra).
        destruct (IH kx ky (kz + 1)%Z) as (ks & W & E & B); try lia.
        exists ((kx, ky, kz + 1)%Z :: ks). split; [constructor; auto|split].
        * rewrite Sz, Nz. unfold tx, ty. rewrite E. reflexivity.
        * apply (Combine tz); auto; try lra.
          intros t0 B0 Le. unfold in_box in *. fold tx ty in B0 |- *. rewrite Pz, <- Nz. lra.
      + assert (ky < ny)%Z by (apply Ty; lra).
        destruct (IH kx (ky + 1)%Z kz) as (ks & W & E & B); try lia.
        exists ((kx, ky + 1, kz)%Z :: ks). split; [constructor; auto|split].
        * rewrite Sy, Ny. unfold tx, tz. rewrite E. reflexivity.
        * apply (Combine ty); auto; try lra.
          intros t0 B0 Le. unfold in_box in *. fold tx tz in B0 |- *. rewrite Py, <- Ny. lra.
      + assert (kz < nz)%Z by (apply Tz; lra).
        destruct (IH kx ky (kz + 1)%Z) as (ks & W & E & B); try lia.
        exists ((kx, ky, kz + 1)%Z :: ks). split; [constructor; auto|split].
        * rewrite Sz, Nz. unfold tx, ty. rewrite E. reflexivity.
        * apply (Combine tz); auto; try lra.
          intros t0 B0 Le. unfold in_box in *. fold tx ty in B0 |- *. rewrite Pz, <- Nz. lra.
  Qed.
End Loop.

(** ** Offsets and lengths along one axis *)
Definition tiny : R := 1 / 10000000000.
Lemma tiny_pos : 0 < tiny < / 4.
Proof. unfold tiny; lra. Qed.

Lemma no_zero_eq : forall d, no_zero (K := FltR) d = if Req_EM_T d 0 then tiny else d.
Proof.
  intros d. unfold no_zero, Reqb, s0, d_tiny; rred. unfold Reqb. destruct (Req_EM_T d 0); reflexivity.
Qed.
Lemma no_zero_nz : forall d, no_zero (K := FltR) d <> 0.
Proof. intros d. rewrite no_zero_eq. pose proof tiny_pos. destruct (Req_EM_T d 0); lra. Qed.

(** Length along an axis. *)
Definition span (a b : R) : R := Rabs (no_zero (K := FltR) (b - a)).
Lemma span_pos : forall a b, 0 < span a b.
Proof. intros; apply Rabs_pos_lt, no_zero_nz. Qed.
Lemma span_eq : forall a b, a <> b -> span a b = Rabs (b - a).
Proof. intros; unfold span; rewrite no_zero_eq; destruct (Req_EM_T (b - a) 0); auto; lra. Qed.
Lemma span_same : forall a, span a a = tiny.
Proof.
  intros; unfold span; rewrite no_zero_eq; destruct (Req_EM_T (a - a) 0); [|lra].
  apply Rabs_right. pose proof tiny_pos; lra.
Qed.

Definition half_integer (x : R) : Prop := exists n, x = IZR n + / 2.
Definition integer (x : R) : Prop := exists n, x = IZR n.

Lemma zround_strict : forall x, ~ half_integer x ->
  IZR (zround x) - / 2 < x < IZR (zround x) + / 2.
Proof.
  intros x H. destruct (zround_spec x) as [L U]. split.
  - destruct L as [L|L]; [lra|]. exfalso. apply H. exists (zround x - 1)%Z. rewrite minus_IZR. lra.
  - destruct U as [U|U]; [lra|]. exfalso. apply H. exists (zround x). lra.
Qed.
Lemma zround_shift : forall x n, ~ half_integer x -> zround (x + IZR n) = (zround x + n)%Z.
Proof.
  intros x n H. apply zround_unique. rewrite plus_IZR. pose proof (zround_strict x H). lra.
Qed.
Lemma zceil_shift : forall x n, zceil (x + IZR n) = (zceil x + n)%Z.
Proof.
  intros x n. apply zceil_unique. rewrite plus_IZR. pose proof (zceil_spec x). lra.
Qed.
Lemma half_integer_dec : forall x, half_integer x \/ ~ half_integer x.
Proof.
  intros x. destruct (Req_dec x (IZR (zfloor x) + / 2)) as [E|E]; [left; exists (zfloor x); auto|].
  right. intros [n Hn]. apply E. rewrite (zfloor_unique x n) by lra. auto.
Qed.
Lemma integer_dec : forall x, integer x \/ ~ integer x.
Proof.
  intros x. destruct (Req_dec x (IZR (zceil x))) as [E|E]; [left; exists (zceil x); auto|].
  right. intros [n Hn]. apply E. rewrite (zceil_unique x n) by lra. auto.
Qed.

Definition off_xy (up : bool) (a : R) : R := no_border (K := FltR) (offset_xy (K := FltR) up a).
Definition off_z (up : bool) (a : R) : R := no_border (K := FltR) (offset_z (K := FltR) up a).

Lemma offset_xy_eq : forall up a,
  offset_xy (K := FltR) up a = if up then IZR (zround a) + / 2 - a else a - IZR (zround a) + / 2.
Proof. intros [] a; unfold offset_xy, d_half; rred; lra. Qed.
Lemma no_border_eq : forall t, no_border (K := FltR) t = if Req_EM_T t 0 then 1 else t.
Proof. intros; unfold no_border, s0; rred; unfold Reqb. destruct (Req_EM_T t 0); reflexivity. Qed.
Lemma off_xy_range : forall up a, 0 < off_xy up a <= 1.
Proof.
  intros up a. unfold off_xy. rewrite offset_xy_eq, no_border_eq.
  pose proof (zround_spec a). destruct up; destruct (Req_EM_T _ 0); lra.
Qed.
Lemma off_xy_half : forall up a, half_integer a -> off_xy up a = 1.
Proof.
  intros up a [n Hn]. unfold off_xy. rewrite offset_xy_eq, no_border_eq.
  pose proof (zround_spec a) as [L U].
  assert (E : zround a = n \/ zround a = (n + 1)%Z).
  { assert (zround a < n + 2)%Z by (apply lt_IZR; rewrite plus_IZR; lra).
    assert (n - 1 < zround a)%Z by (apply lt_IZR; rewrite minus_IZR; lra). lia. }
  destruct up; destruct (Req_EM_T _ 0) as [Z|Z]; auto;
    destruct E as [E|E]; rewrite E in *; rewrite ?plus_IZR in *; lra.
Qed.
Lemma off_xy_eq : forall up a, ~ half_integer a ->
  off_xy up a = if up then IZR (zround a) + / 2 - a else a - IZR (zround a) + / 2.
Proof.
  intros up a H. unfold off_xy. rewrite offset_xy_eq, no_border_eq.
  pose proof (zround_strict a H). destruct up; destruct (Req_EM_T _ 0); lra.
Qed.
Lemma zceil_zfloor : forall a, ~ integer a -> zceil a = (zfloor a + 1)%Z.
Proof.
  intros a H. apply zceil_unique. rewrite plus_IZR. destruct (zfloor_spec a) as [L U].
  split; [|lra]. destruct L as [L|L]; [lra|]. exfalso; apply H. exists (zfloor a); auto.
Qed.
Lemma off_z_eq : forall up a, ~ integer a ->
  off_z up a = if up then IZR (zceil a) - a else a - IZR (zceil a) + 1.
Proof.
  intros up a H. unfold off_z, offset_z; rred. rewrite no_border_eq.
  pose proof (zceil_zfloor a H) as C.
  destruct up.
  - destruct (Req_EM_T (IZR (zceil a) - a) 0) as [E|E]; auto.
    exfalso; apply H; exists (zceil a); lra.
  - destruct (Req_EM_T (a - IZR (zfloor a)) 0) as [E|E].
    + exfalso; apply H; exists (zfloor a); lra.
    + rewrite C, plus_IZR. lra.
Qed.
Lemma off_z_int : forall up n, off_z up (IZR n) = 1.
Proof.
  intros up n. unfold off_z, offset_z; rred. rewrite no_border_eq, zceil_IZR, zfloor_IZR.
  destruct up; destruct (Req_EM_T _ 0); lra.
Qed.
Lemma off_z_range : forall up a, 0 < off_z up a <= 1.
Proof.
  intros up a. destruct (integer_dec a) as [[n ->]|H]; [rewrite off_z_int; lra|].
  rewrite off_z_eq by auto. pose proof (zceil_spec a) as [L U].
  assert (IZR (zceil a) <> a) by (intros E; apply H; exists (zceil a); auto).
  destruct up; lra.
Qed.

Lemma t_delta_len : forall d e f, d <> 0 ->
  Rabs d * t_delta (K := FltR) d e f = sqrt (d * d + e * e + f * f).
Proof.
  intros d e f H. unfold t_delta, d1; rred. rewrite <- sqrt_Rsqr_abs, <- sqrt_mult_alt.
  - f_equal. unfold Rsqr. field. auto.
  - unfold Rsqr; nra.
Qed.

Definition up_ (a b : R) : bool := Rltb a b.
Lemma up_cases : forall a b, (up_ a b = true /\ a < b) \/ (up_ a b = false /\ b <= a).
Proof.
  intros a b. unfold up_. destruct (Rltb a b) eqn:E; rbool; auto.
Qed.

(** ** The whole line *)
Definition n_x (p q : rvec) : Z := crossings (off_xy (up_ (vx p) (vx q)) (vx p)) (span (vx p) (vx q)).
Definition n_y (p q : rvec) : Z := crossings (off_xy (up_ (vy p) (vy q)) (vy p)) (span (vy p) (vy q)).
Definition n_z (p q : rvec) : Z := crossings (off_z (up_ (vz p) (vz q)) (vz p)) (span (vz p) (vz q)).

Definition line_cast (p q : rvec) : count3 -> outcome cell3 :=
  cast3 (up_ (vx p) (vx q)) (up_ (vy p) (vy q)) (up_ (vz p) (vz q)) (vx p) (vy p) (vz p).

(** Along an axis of length [d] with first boundary at [o], the fraction [s] of the
    line lies after [k] boundaries. *)
Definition between (o d : R) (k : Z) (s : R) : Prop := o + IZR k - 1 <= s * d <= o + IZR k.
Definition at_fraction (p q : rvec) (k : count3) (s : R) : Prop :=
  let '(kx, ky, kz) := k in
  between (off_xy (up_ (vx p) (vx q)) (vx p)) (span (vx p) (vx q)) kx s /\
  between (off_xy (up_ (vy p) (vy q)) (vy p)) (span (vy p) (vy q)) ky s /\
  between (off_z (up_ (vz p) (vz q)) (vz p)) (span (vz p) (vz q)) kz s.

Notation rline := (line_pos (K := FltR)).

Lemma line_walk : forall fuel p q,
  (n_x p q + n_y p q + n_z p q <= Z.of_nat fuel)%Z ->
  exists ks, walk (0, 0, 0)%Z ks (n_x p q, n_y p q, n_z p q) /\
    rline fuel p q = mapm (line_cast p q) ((0, 0, 0)%Z :: ks) /\
    (forall k, In k ((0, 0, 0)%Z :: ks) -> exists s, 0 <= s <= 1 /\ at_fraction p q k s) /\
    (forall s, 0 <= s <= 1 -> exists k, In k ((0, 0, 0)%Z :: ks) /\ at_fraction p q k s).
Proof.
  intros fuel p q F.
  set (dx := no_zero (K := FltR) (vx q - vx p)).
  set (dy := no_zero (K := FltR) (vy q - vy p)).
  set (dz := no_zero (K := FltR) (vz q - vz p)).
  assert (Dx : dx <> 0) by apply no_zero_nz. assert (Dy : dy <> 0) by apply no_zero_nz.
  assert (Dz : dz <> 0) by apply no_zero_nz.
  set (norm := sqrt (dx * dx + dy * dy + dz * dz)).
  set (ex := t_delta (K := FltR) dx dy dz). set (ey := t_delta (K := FltR) dy dx dz).
  set (ez := t_delta (K := FltR) dz dx dy).
  assert (Ex : span (vx p) (vx q) * ex = norm) by (apply t_delta_len; auto).
  assert (Ey : span (vy p) (vy q) * ey = norm).
  { unfold span. fold dy. unfold ey. rewrite t_delta_len by auto. unfold norm; f_equal; ring. }
  assert (Ez : span (vz p) (vz q) * ez = norm).
  { unfold span. fold dz. unfold ez. rewrite t_delta_len by auto. unfold norm; f_equal; ring. }
  assert (Hn : 0 < norm) by (apply sqrt_lt_R0; nra).
  pose proof (span_pos (vx p) (vx q)) as Px. pose proof (span_pos (vy p) (vy q)) as Py.
  pose proof (span_pos (vz p) (vz q)) as Pz.
  assert (Ex0 : 0 < ex) by (apply (Rmult_lt_reg_l (span (vx p) (vx q))); lra).
  assert (Ey0 : 0 < ey) by (apply (Rmult_lt_reg_l (span (vy p) (vy q))); lra).
  assert (Ez0 : 0 < ez) by (apply (Rmult_lt_reg_l (span (vz p) (vz q))); lra).
  destruct (loop_walk (up_ (vx p) (vx q)) (up_ (vy p) (vy q)) (up_ (vz p) (vz q))
              (off_xy (up_ (vx p) (vx q)) (vx p)) (off_xy (up_ (vy p) (vy q)) (vy p))
              (off_z (up_ (vz p) (vz q)) (vz p))
              (span (vx p) (vx q)) (span (vy p) (vy q)) (span (vz p) (vz q))
              ex ey ez norm (vx p) (vy p) (vz p) Px Py Pz Hn Ex Ey Ez fuel 0 0 0)%Z
    as (ks & W & E & B).
  1-3: split; [lia|apply crossings_nonneg].
  { fold (n_x p q) (n_y p q) (n_z p q). lia. }
  fold (n_x p q) (n_y p q) (n_z p q) in W.
  exists ks. split; [exact W|]. split.
  - cbn [mapm]. fold (line_cast p q) in E. rewrite <- E. unfold line_cast, cast3 at 1.
    assert (S0 : forall u x, shifted u x 0 = x) by (intros; unfold shifted; ring).
    rewrite !S0, !Rplus_0_r. reflexivity.
  - assert (Fr : forall k t, in_box (off_xy (up_ (vx p) (vx q)) (vx p))
                  (off_xy (up_ (vy p) (vy q)) (vy p)) (off_z (up_ (vz p) (vz q)) (vz p))
                  ex ey ez k t <-> at_fraction p q k (t / norm)).
    { intros [[kx ky] kz] t. unfold in_box, at_fraction, between.
      assert (A : forall o d e n, 0 < d -> 0 < e -> d * e = norm ->
        ((o + IZR n - 1) * e <= t <= (o + IZR n) * e <->
         o + IZR n - 1 <= t / norm * d <= o + IZR n)).
      { intros o d e n Hd He H. replace (t / norm * d) with (t / e) by (rewrite <- H; field; lra).
        assert (Q : t / e * e = t) by (field; lra).
        split; intros [L U]; split.
        - apply (Rmult_le_reg_r e); lra.
        - apply (Rmult_le_reg_r e); lra.
        - rewrite <- Q. apply Rmult_le_compat_r; lra.
        - rewrite <- Q. apply Rmult_le_compat_r; lra. }
      rewrite (A _ (span (vx p) (vx q)) ex), (A _ (span (vy p) (vy q)) ey),
        (A _ (span (vz p) (vz q)) ez) by auto. tauto. }
    assert (B0 : in_box (off_xy (up_ (vx p) (vx q)) (vx p))
                  (off_xy (up_ (vy p) (vy q)) (vy p)) (off_z (up_ (vz p) (vz q)) (vz p))
                  ex ey ez (0, 0, 0)%Z 0).
    { unfold in_box. pose proof (off_xy_range (up_ (vx p) (vx q)) (vx p)).
      pose proof (off_xy_range (up_ (vy p) (vy q)) (vy p)).
      pose proof (off_z_range (up_ (vz p) (vz q)) (vz p)). repeat split; nra. }
    destruct (B 0 B0) as [B1 B2]. split.
    + intros k [<-|Hk].
      * exists 0; split; [lra|]. apply Fr in B0. replace (0 / norm) with 0 in B0 by (field; lra). auto.
      * destruct (B1 k Hk) as (t & Ht & Bt). exists (t / norm). split; [|apply Fr; auto].
        split; [apply Rmult_le_pos; [lra|left; apply Rinv_0_lt_compat; auto]|].
        apply (Rmult_le_reg_r norm); auto. unfold Rdiv. rewrite Rmult_assoc, Rinv_l by lra. lra.
    + intros s Hs. destruct (B2 (s * norm)) as (k & Hk & Bk); [nra|].
      exists k; split; [auto|]. apply Fr in Bk.
      replace (s * norm / norm) with s in Bk by (field; lra). auto.
Qed.
