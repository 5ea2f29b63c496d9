(** MoveIntersectingBodySoil: the soil that goes through the upper layer of the
    body is moved aside; nothing is lost unless the warning is logged. *)
From Coq Require Import ZArith List Bool Lia Permutation.
From Verif Require Import Outcome Num State Base Spec InvBase ModelRelax RelaxBase
  ModelIntersect.
Import ListNotations.
Open Scope Z_scope.

Section IntersectSoil.
  Context {upm : units}.
  Local Notation sim := (sim (ZNum upm)).
  Local Notation rec := (rec_t (ZNum upm)).

  (** The soil of layer [k] goes through the other layer. *)
  Definition over (s : sim) (k i j : Z) : Prop :=
    soil_on s k i j /\ body_at s (2 - k) i j /\
    (body s k i j : Z) < body s (2 - k) i j /\
    (body s (2 - k) i j : Z) < body_soil s (k + 1) i j.

  Lemma soil_below_over (s : sim) :
    (forall k i j, on_grid s i j -> layer k -> ~ over s k i j) <-> soil_below s.
  Proof.
    split.
    - intros H i j k Hg Hk Hs Hb Hl. specialize (H k i j Hg Hk).
      destruct (Z_le_gt_dec (body_soil s (k + 1) i j) (body s (2 - k) i j)); auto.
      exfalso. apply H. unfold over. repeat split; auto; lia.
    - intros H k i j Hg Hk (Hs & Hb & Hl & Ho). specialize (H i j k Hg Hk Hs Hb Hl). lia.
  Qed.

  Lemma directions8_neighbour d :
    In d directions8 -> (fst d, snd d) <> (0, 0) /\
      -1 <= fst d <= 1 /\ -1 <= snd d <= 1.
  Proof.
    cbn. intros H. repeat destruct H as [<-|H]; try destruct H; cbn [fst snd]; split;
      try lia; intros [= E]; lia.
  Qed.

  Variable near : Pos (ZNum upm) -> Prop.
  Variable cz : Z.
  Variable frame : Z -> Z -> Z -> Pos (ZNum upm).
  Variable tol : Z.
  Hypothesis Htol : 0 < tol.
  Hypothesis Hcz : 2 * tol < cz.

  Local Notation walk := (@walk (ZNum upm)).

  Definition ready (s : sim) : Prop :=
    consistent near cz s (records s) /\ frame_near near frame s.

  (** [s], with [h] units of soil in hand, became [s'] with [h']; at most [n] new
      records. *)
  Definition moves (n : nat) (s : sim) (h : Z) (s' : sim) (h' : Z) : Prop :=
    ready s' /\ same_dims s s' /\ beq s s' /\
    body_area s' = body_area s /\ relax_area s' = relax_area s /\
    impact_area s' = impact_area s /\ wlog s' = wlog s /\
    total_soil s' + h' = total_soil s + h /\
    0 <= h' <= h /\ aligned cz h' /\
    (forall k i j, layer k -> over s' k i j -> over s k i j) /\
    exists l, records s' = records s ++ l /\ (length l <= n)%nat /\
      Forall (fun e => layer (e_ind e) /\ ~ over s' (e_ind e) (e_i e) (e_j e)) l.

  Lemma moves_refl n s h : ready s -> 0 <= h -> aligned cz h -> moves n s h s h.
  Proof.
    intros R Hh Ah. split; [auto|]. split; [split; auto|].
    split; [intros k i j; auto|]. repeat (split; auto; try lia).
    exists []. rewrite app_nil_r. split; auto. split; [cbn; lia|auto].
  Qed.

  Lemma moves_trans n m s1 h1 s2 h2 s3 h3 :
    moves n s1 h1 s2 h2 -> moves m s2 h2 s3 h3 -> moves (n + m) s1 h1 s3 h3.
  Proof.
    intros (A1 & (A2 & A2') & A3 & A4 & A5 & A6 & A7 & A8 & A9 & A10 & A11 & l & A12 & A13 & A14)
           (B1 & (B2 & B2') & B3 & B4 & B5 & B6 & B7 & B8 & B9 & B10 & B11 & l' & B12 & B13 & B14).
    split; [auto|]. split; [split; congruence|].
    split; [intros k i j; rewrite B3; apply A3|].
    do 4 (split; [congruence|]). split; [lia|]. split; [lia|]. split; [auto|].
    split; [auto|].
    exists (l ++ l'). rewrite B12, A12, app_assoc. split; auto.
    rewrite app_length. split; [lia|].
    apply Forall_app. split; auto.
    eapply Forall_impl; [|exact A14]. cbn. intros e [L N]. split; auto.
  Qed.

  Lemma moves_more n m s h s' h' : (n <= m)%nat -> moves n s h s' h' -> moves m s h s' h'.
  Proof.
    intros Hm (A1 & A2 & A3 & A4 & A5 & A6 & A7 & A8 & A9 & A10 & A11 & l & E & L & Fa).
    do 11 (split; [assumption|]). exists l. split; auto. split; [lia|auto].
  Qed.

  (** ** One step of the walk *)

  Definition new_rec (s : sim) (k i j h : Z) : rec :=
    @mkRec (ZNum upm) k i j (frame i j (body s (k + 1) i j)) h.

  Lemma new_rec_fine (s : sim) k i j (h : Z) :
    ready s -> on_grid s i j -> layer k -> body_at s k i j ->
    0 <= h -> aligned cz h -> rec_ok near cz s (new_rec s k i j h).
  Proof.
    intros [(_ & _ & H1 & _) H2] Hg Hk Hb Hh Ah.
    destruct (H1 i j Hg) as (_ & [A1 _] & _). destruct (A1 k Hk Hb) as [Hin _].
    split; [|split; [|split; [|split]]]; auto. cbn. apply H2; auto.
  Qed.

  (** Depositing soil on layer [k]. *)
  Definition put (s : sim) (k i j h : Z) : sim :=
    push_record (A := ZNum upm)
      (if soil_present s k i j
       then set_bs (A := ZNum upm) s (k + 1) i j ((body_soil s (k + 1) i j : Z) + h)
       else set_bs (A := ZNum upm) (set_bs s k i j (body s (k + 1) i j))
              (k + 1) i j ((body s (k + 1) i j : Z) + h))
      (new_rec s k i j h).

  Lemma put_set (s : sim) k i j (h : Z) :
    ready s -> on_grid s i j -> layer k -> body_at s k i j ->
    soil_set s (put s k i j h) k i j (body s (k + 1) i j) (column_top s k i j + h).
  Proof.
    intros [(_ & _ & H1 & _) _] Hg Hk Hb.
    destruct (H1 i j Hg) as (_ & _ & A3). destruct (A3 k Hk) as [B1 _].
    unfold put, column_top. destruct (soil_present s k i j) eqn:E.
    - apply soil_present_spec in E. destruct (B1 E) as (_ & C & _).
      split; [split; auto|]. split; [intros i' j'; auto|]. split; [intros k' i' j'; auto|].
      upds. split; [|split].
      + eqbs; auto; lia.
      + rewrite !Z.eqb_refl. reflexivity.
      + intros k' i' j' N. eqbs; auto; tauto.
    - split; [split; auto|]. split; [intros i' j'; auto|]. split; [intros k' i' j'; auto|].
      upds. split; [|split].
      + eqbs; auto; lia.
      + rewrite !Z.eqb_refl. reflexivity.
      + intros k' i' j' N. eqbs; auto; tauto.
  Qed.

  Lemma put_moves (s : sim) k i j (h0 h : Z) :
    ready s -> on_grid s i j -> layer k -> body_at s k i j ->
    0 <= h0 <= h -> aligned cz h0 -> aligned cz h ->
    (body_at s (2 - k) i j -> (body s k i j : Z) < body s (2 - k) i j ->
     column_top s k i j + h0 <= body s (2 - k) i j) ->
    moves 1 s h (put s k i j h0) (h - h0).
  Proof.
    intros R Hg Hk Hb Hh Ah0 Ah Hc.
    pose proof (put_set s k i j h0 R Hg Hk Hb) as Hset.
    assert (Hok : rec_ok near cz s (new_rec s k i j h0)) by (apply new_rec_fine; auto; lia).
    destruct R as [R1 R2].
    destruct (consistent_put near cz s (put s k i j h0) (records s) (new_rec s k i j h0)
      R1 Hok Hb Hset) as (C1 & C2 & _).
    cbn [new_rec e_h] in C2.
    pose proof Hset as (S1 & S2 & S3 & S4 & S5 & S6).
    assert (Er : records (put s k i j h0) = records s ++ [new_rec s k i j h0])
      by (unfold put; destruct (soil_present s k i j); reflexivity).
    split. { split; [rewrite Er; auto|]. eapply frame_near_beq; eauto. }
    split; [auto|]. split; [auto|].
    do 4 (split; [unfold put; destruct (soil_present s k i j); reflexivity|]).
    split; [cbn in *; lia|]. split; [lia|]. split; [apply aligned_sub; auto|].
    assert (No : ~ over (put s k i j h0) k i j).
    { intros (_ & O2 & O3 & O4). unfold body_at in O2. rewrite !S3 in O2. rewrite !S3 in O3.
      rewrite S5, S3 in O4. specialize (Hc O2 O3). lia. }
    split.
    - intros k' i' j' Hk' O.
      assert (C : (k' = k /\ i' = i /\ j' = j) \/ ~ (k' = k /\ i' = i /\ j' = j)) by lia.
      destruct C as [(-> & -> & ->)|C]; [tauto|].
      destruct (soil_set_other_layer _ _ _ _ _ _ _ k' i' j' Hset Hk Hk' C) as [E1 E2].
      unfold over, soil_on, body_at in *. rewrite E1, E2, !S3 in O. auto.
    - exists [new_rec s k i j h0]. split; [auto|]. split; [cbn; lia|].
      constructor; auto.
  Qed.

  (** Depositing soil on the terrain. *)
  Lemma terrain_moves (s : sim) i j (h : Z) :
    ready s -> on_grid s i j -> 0 <= h -> aligned cz h ->
    moves 0 s h (set_t (A := ZNum upm) s i j ((terrain s i j : Z) + h)) 0.
  Proof.
    intros [R1 R2] Hg Hh Ah.
    set (s' := set_t s i j ((terrain s i j : Z) + h)).
    assert (T : terrain_set s s' i j ((terrain s i j : Z) + h)).
    { unfold s'. split; [split; auto|]. split; [intros k i' j'; reflexivity|].
      split; [intros k i' j'; reflexivity|]. upds.
      split; [rewrite !Z.eqb_refl; reflexivity|].
      intros i' j' Hn. eqbs; auto. tauto. }
    assert (Av : aligned cz ((terrain s i j : Z) + h)).
    { apply aligned_add; auto. destruct R1 as (_ & _ & H1 & _). apply (H1 i j Hg). }
    destruct (consistent_terrain near cz s s' (records s) i j _ R1 Hg Av T) as (A1 & A2 & _ & _).
    split; [split; auto|]. split; [split; auto|]. split; [intros k' i' j'; auto|].
    do 4 (split; [reflexivity|]). split; [lia|]. split; [lia|]. split; [apply aligned_0|].
    split; [auto|].
    exists []. rewrite app_nil_r. auto.
  Qed.

  (** What one move of the walk guarantees. *)
  Definition walked (s : sim) (w : walk) (i j : Z) (p : sim * walk) : Prop :=
    let '(s', w') := p in
    moves 1 s (w_h w) s' (w_h w') /\ inside s (w_i w') (w_j w') /\
    (inside s i j \/ (w_h w' : Z) = 0).

  Lemma move_single_walked (s : sim) (w : walk) (max_h : Z) k i j :
    ready s -> on_grid s i j -> inside s (w_i w) (w_j w) ->
    0 <= (w_h w : Z) -> aligned cz (w_h w) ->
    layer k -> body_at s k i j -> ~ body_at s (2 - k) i j ->
    walked s w i j (move_single (A := ZNum upm) frame tol s w max_h k i j).
  Proof.
    intros R Hg Hw Hh Ah Hk Hb Ho. unfold move_single. zn.
    assert (Hin : inside s i j).
    { destruct R as [(_ & _ & H1 & _) _]. destruct (H1 i j Hg) as (_ & [A1 _] & _).
      apply (A1 k Hk Hb). }
    destruct (_ <? body s k i j - tol).
    - cbn. split; [|auto].
      apply moves_more with (n := 0%nat); auto. apply terrain_moves; auto.
    - destruct (max_h <? _).
      + cbn. split; [|auto]. apply moves_refl; auto.
      + cbn. split; [|auto].
        pose proof (put_moves s k i j (w_h w) (w_h w) R Hg Hk Hb) as P.
        rewrite Z.sub_diag in P.
        assert (E : forall s' : sim, body s' (k + 1) i j = body s (k + 1) i j ->
          @mkRec (ZNum upm) k i j (frame i j (body s' (k + 1) i j)) (w_h w)
          = new_rec s k i j (w_h w)) by (intros s' E; unfold new_rec; rewrite E; auto).
        rewrite E by (destruct (soil_present s k i j); reflexivity).
        apply P; auto; [lia|tauto].
  Qed.

  Lemma move_between_walked (s : sim) (w : walk) i j :
    ready s -> on_grid s i j -> inside s (w_i w) (w_j w) ->
    0 <= (w_h w : Z) -> aligned cz (w_h w) ->
    body_at s 0 i j -> body_at s 2 i j ->
    walked s w i j (move_between (A := ZNum upm) frame tol s w i j).
  Proof.
    intros R Hg Hw Hh Ah B0 B2. unfold move_between. zn.
    pose proof R as [(_ & _ & H1 & _) _].
    destruct (H1 i j Hg) as ([_ A1] & [A2 A2'] & A3).
    assert (Hin : inside s i j) by (apply (A2 0); [left|]; auto).
    assert (Gen : forall kb kt, layer kb -> kt = 2 - kb ->
      (body s kb i j : Z) < body s kt i j ->
      walked s w i j
       (if soil_present s kb i j && (body s kt i j <? body_soil s (kb + 1) i j + tol)
        then (s, @mkWalk (ZNum upm) kb i j (w_h w) (w_wall w))
        else
         if soil_present s kb i j
         then
          if body s kt i j - body_soil s (kb + 1) i j <? w_h w
          then
           (push_record (A := ZNum upm)
              (set_bs (A := ZNum upm) s (kb + 1) i j
                 (body_soil s (kb + 1) i j + (body s kt i j - body_soil s (kb + 1) i j)))
              (@mkRec (ZNum upm) kb i j (frame i j (body s (kb + 1) i j))
                 (body s kt i j - body_soil s (kb + 1) i j)),
            @mkWalk (ZNum upm) kb i j (w_h w - (body s kt i j - body_soil s (kb + 1) i j)) (w_wall w))
          else
           (push_record (A := ZNum upm)
              (set_bs (A := ZNum upm) s (kb + 1) i j (body_soil s (kb + 1) i j + w_h w))
              (@mkRec (ZNum upm) kb i j (frame i j (body s (kb + 1) i j)) (w_h w)),
            @mkWalk (ZNum upm) (w_ind w) (w_i w) (w_j w) 0 (w_wall w))
         else
          if body s kt i j - body s (kb + 1) i j <? w_h w
          then
           (push_record (A := ZNum upm)
              (set_bs (A := ZNum upm) (set_bs s kb i j (body s (kb + 1) i j)) (kb + 1) i j
                 (body s (kb + 1) i j + (body s kt i j - body s (kb + 1) i j)))
              (@mkRec (ZNum upm) kb i j (frame i j (body s (kb + 1) i j))
                 (body s kt i j - body s (kb + 1) i j)),
            @mkWalk (ZNum upm) kb i j (w_h w - (body s kt i j - body s (kb + 1) i j)) (w_wall w))
          else
           (push_record (A := ZNum upm)
              (set_bs (A := ZNum upm) (set_bs s kb i j (body s (kb + 1) i j)) (kb + 1) i j
                 (body s (kb + 1) i j + w_h w))
              (@mkRec (ZNum upm) kb i j (frame i j (body s (kb + 1) i j)) (w_h w)),
            @mkWalk (ZNum upm) (w_ind w) (w_i w) (w_j w) 0 (w_wall w)))).
    { intros kb kt Hk -> Hlt.
      assert (Bk : body_at s kb i j) by (destruct Hk as [->| ->]; auto).
      assert (Bt : body_at s (2 - kb) i j) by (destruct Hk as [->| ->]; kred; auto).
      assert (Hlt' : (body s (kb + 1) i j : Z) < body s (2 - kb) i j).
      { assert (Lk : layer (2 - kb)) by (unfold layer in *; lia).
        destruct (A2 kb Hk Bk). destruct (A2 (2 - kb) Lk Bt).
        specialize (A2' B0 B2). destruct Hk as [->| ->]; kred; lia. }
      destruct (A1 (2 - kb)) as [At _]; [unfold layer in Hk; lia|].
      destruct (A1 (kb + 1)) as [Ab As]; [unfold layer in Hk; lia|].
      pose proof (put_moves s kb i j) as P. unfold put, column_top in P.
      destruct (soil_present s kb i j) eqn:E; cbn [andb].
      - destruct (Z.ltb_spec (body s (2 - kb) i j) (body_soil s (kb + 1) i j + tol)).
        + cbn. split; [|auto]. apply moves_refl; auto.
        + destruct (Z.ltb_spec (body s (2 - kb) i j - body_soil s (kb + 1) i j) (w_h w)).
          * cbn. split; [|auto]. apply P; auto; try lia. apply aligned_sub; auto.
          * cbn. split; [|auto].
            specialize (P (w_h w) (w_h w)). rewrite Z.sub_diag in P.
            apply P; auto; lia.
      - destruct (Z.ltb_spec (body s (2 - kb) i j - body s (kb + 1) i j) (w_h w)).
        + cbn. split; [|auto]. apply P; auto; try lia. apply aligned_sub; auto.
        + cbn. split; [|auto].
          specialize (P (w_h w) (w_h w)). rewrite Z.sub_diag in P.
          apply P; auto; lia. }
    destruct (A2 0) as [_ L0]; [left; auto|auto|]. destruct (A2 2) as [_ L2]; [right; auto|auto|].
    kred. specialize (A2' B0 B2).
    destruct (Z.ltb_spec (body s 0 i j) (body s 2 i j)).
    - apply Gen; auto. left; auto.
    - apply Gen; auto; [right; auto|lia].
  Qed.

  Lemma move_body_soil_walked (s : sim) (w : walk) (max_h : Z) i j :
    ready s -> on_grid s i j -> inside s (w_i w) (w_j w) ->
    0 <= (w_h w : Z) -> aligned cz (w_h w) ->
    returns (move_body_soil (A := ZNum upm) frame tol s w max_h i j) (walked s w i j).
  Proof.
    intros R Hg Hw Hh Ah. unfold move_body_soil.
    apply returns_guard.
    { rewrite (proj2 (inb_true s i j) Hg).
      rewrite (proj2 (inb_true s _ _)); auto. unfold inside, on_grid in *. lia. }
    destruct (body_absent s 0 i j) eqn:E0; cbn [andb].
    all: destruct (body_absent s 2 i j) eqn:E2.
    all: try apply body_absent_true in E0; try apply body_absent_true in E2;
         try apply body_absent_spec in E0; try apply body_absent_spec in E2.
    - cbn. split; [|auto]. apply moves_more with (n := 0%nat); auto. apply terrain_moves; auto.
    - apply move_single_walked; auto. right; auto.
    - apply move_single_walked; auto. left; auto.
    - apply move_between_walked; auto.
  Qed.

  (** ** The walk *)

  Lemma inside_dims (s s' : sim) i j : same_dims s s' -> inside s i j -> inside s' i j.
  Proof. intros [E1 E2]. unfold inside. rewrite E1, E2. auto. Qed.

  Lemma march_bound (nx ny i j dx dy pp : Z) :
    (dx, dy) <> (0, 0) -> -1 <= dx <= 1 -> -1 <= dy <= 1 -> 0 <= pp ->
    1 <= i <= nx - 2 -> 1 <= j <= ny - 2 ->
    1 <= i + pp * dx <= nx - 2 -> 1 <= j + pp * dy <= ny - 2 ->
    pp < nx + ny.
  Proof.
    intros N D1 D2 Hp Hi Hj Hi' Hj'.
    assert (C : dx = -1 \/ dx = 1 \/ (dx = 0 /\ (dy = -1 \/ dy = 1))).
    { destruct (Z.eq_dec dx 0) as [->|]; [|lia]. right; right. split; auto.
      destruct (Z.eq_dec dy 0) as [->|]; [tauto|lia]. }
    destruct C as [->|[->|[-> [->| ->]]]]; lia.
  Qed.

  Lemma march_next (nx ny i j dx dy pp : Z) :
    -1 <= dx <= 1 -> -1 <= dy <= 1 ->
    1 <= i + pp * dx <= nx - 2 -> 1 <= j + pp * dy <= ny - 2 ->
    0 <= i + (pp + 1) * dx < nx /\ 0 <= j + (pp + 1) * dy < ny.
  Proof. lia. Qed.

  Lemma explore_moves d i j : In d directions8 ->
    forall fuel (s : sim) (w : walk) (max_h : Z) pp,
    ready s -> inside s i j -> inside s (w_i w) (w_j w) ->
    0 <= (w_h w : Z) -> aligned cz (w_h w) ->
    0 <= pp -> (inside s (i + pp * fst d) (j + pp * snd d) \/ (w_h w : Z) = 0) ->
    nx s + ny s <= pp + Z.of_nat fuel ->
    returns (explore (A := ZNum upm) frame tol fuel s w max_h i j d pp)
      (fun p => moves (Z.to_nat (nx s + ny s - pp)) s (w_h w) (fst p) (w_h (snd p))).
  Proof.
    intros Hd.
    destruct (directions8_neighbour d Hd) as (N & D1 & D2).
    induction fuel as [|fuel IH]; intros s w max_h pp R Hij Hw Hh Ah Hpp Hin Hf.
    all: cbn [explore]; zn.
    all: destruct (negb (w_wall w) && (tol <? w_h w)) eqn:E;
      [|cbn; apply moves_refl; auto].
    all: apply andb_true_iff in E as [_ E]; apply Z.ltb_lt in E.
    all: assert (Hpos : inside s (i + pp * fst d) (j + pp * snd d))
      by (destruct Hin; [auto|lia]).
    all: assert (Hb : pp < nx s + ny s)
      by (unfold inside in *; eapply (march_bound (nx s) (ny s) i j (fst d) (snd d)); tauto).
    - exfalso. lia.
    - set (ip := i + (pp + 1) * fst d). set (jp := j + (pp + 1) * snd d).
      assert (Hg : on_grid s ip jp)
        by (unfold inside, on_grid in *; apply (march_next (nx s) (ny s)); tauto).
      eapply returns_bind; [apply move_body_soil_walked; auto|].
      intros [s1 w1] (M & I1 & I2). cbn.
      pose proof M as (R1 & Dm & _ & _ & _ & _ & _ & _ & Hh1 & Ah1 & _).
      assert (I1' : inside s1 (w_i w1) (w_j w1)) by (eapply inside_dims; eauto).
      apply returns_guard.
      { apply inb_true. unfold inside, on_grid in *. lia. }
      eapply returns_weaken.
      + apply IH; auto; try lia.
        * eapply inside_dims; eauto.
        * destruct I2 as [I2|I2]; [left|auto]. eapply inside_dims; eauto.
        * destruct Dm as [-> ->]. lia.
      + cbn. intros p M2. destruct Dm as [E1 E2]. rewrite E1, E2 in M2.
        eapply moves_more; [|eapply moves_trans; [exact M|exact M2]]. lia.
  Qed.

  Lemma explore_all_moves ind ind_t i j fuel dirs :
    Forall (fun d => In d directions8) dirs ->
    forall (s : sim) (h : Z),
    ready s -> inside s i j -> 0 <= h -> aligned cz h ->
    nx s + ny s <= Z.of_nat fuel ->
    returns (explore_all (A := ZNum upm) frame tol fuel dirs s ind ind_t i j h)
      (fun p => moves (length dirs * Z.to_nat (nx s + ny s)) s h (fst p) (snd p)).
  Proof.
    induction 1 as [|d dirs Hd H IH]; intros s h R Hij Hh Ah Hf.
    - cbn. apply moves_refl; auto.
    - cbn [explore_all].
      eapply returns_bind.
      + apply explore_moves with (w := @mkWalk (ZNum upm) ind i j h false); auto; try lia.
        left. unfold inside in *. lia.
      + cbn [w_h]. intros [s1 w1] M. cbn [fst snd] in M. rewrite Z.sub_0_r in M.
        zn. destruct (w_h w1 <? tol).
        * cbn. eapply moves_more; [|exact M]. cbn [length Nat.mul]. apply Nat.le_add_r.
        * pose proof M as (R1 & Dm & _ & _ & _ & _ & _ & _ & Hh1 & Ah1 & _).
          eapply returns_weaken.
          -- apply IH; auto; try lia; [eapply inside_dims; eauto|].
             destruct Dm as [-> ->]. lia.
          -- cbn. intros p M2. destruct Dm as [E1 E2]. rewrite E1, E2 in M2.
             eapply moves_trans; eauto.
  Qed.

  Lemma explore_all_zero fuel dirs (s : sim) ind ind_t i j :
    explore_all (A := ZNum upm) frame tol fuel dirs s ind ind_t i j 0 = Ok (s, 0).
  Proof.
    destruct dirs as [|d dirs]; auto. cbn [explore_all].
    assert (E : forall (w : walk) (mh : Z) pp, (w_h w : Z) = 0 ->
      explore (A := ZNum upm) frame tol fuel s w mh i j d pp = Ok (s, w)).
    { intros w mh pp E. destruct fuel; cbn [explore]; zn; rewrite E;
        rewrite (proj2 (Z.ltb_ge tol 0)) by lia; rewrite andb_false_r; auto. }
    rewrite E by auto. cbn. rewrite (proj2 (Z.ltb_lt 0 tol)) by lia. auto.
  Qed.

  Lemma explore_all_moves0 ind ind_t i j fuel dirs (s : sim) (h : Z) :
    Forall (fun d => In d directions8) dirs ->
    ready s -> inside s i j -> 0 <= h -> aligned cz h ->
    nx s + ny s <= Z.of_nat fuel ->
    returns (explore_all (A := ZNum upm) frame tol fuel dirs s ind ind_t i j h)
      (fun p => moves (length dirs * Z.to_nat (nx s + ny s)) s h (fst p) (snd p) /\
                (h = 0 -> records (fst p) = records s)).
  Proof.
    intros H1 H2 H3 H4 H5 H6. destruct (Z.eq_dec h 0) as [->|Nz].
    - rewrite explore_all_zero. cbn. split; auto. apply moves_refl; auto.
    - eapply returns_weaken; [apply explore_all_moves; auto|]. cbn. tauto.
  Qed.

  (** ** One record *)

  (** What is lost is announced. *)
  Definition loses (s s' : sim) : Prop :=
    exists lost n, total_soil s' + lost = total_soil s /\ 0 <= lost /\
      wlog s' = wlog s ++ repeat WRemoved n /\ (n = 0%nat <-> lost = 0).

  Lemma loses_refl s : loses s s.
  Proof. exists 0, 0%nat. cbn. rewrite app_nil_r. repeat split; auto; lia. Qed.

  Lemma loses_trans s1 s2 s3 : loses s1 s2 -> loses s2 s3 -> loses s1 s3.
  Proof.
    intros (a & n & A1 & A2 & A3 & A4) (b & m & B1 & B2 & B3 & B4).
    exists (a + b), (n + m)%nat. split; [lia|]. split; [lia|].
    split; [rewrite B3, A3, repeat_app, app_assoc; auto|]. lia.
  Qed.

  Definition quiet (s s' : sim) : Prop :=
    same_dims s s' /\ beq s s' /\ body_area s' = body_area s /\
    relax_area s' = relax_area s /\ impact_area s' = impact_area s.

  Lemma quiet_refl s : quiet s s.
  Proof. repeat split. Qed.

  Lemma quiet_trans s1 s2 s3 : quiet s1 s2 -> quiet s2 s3 -> quiet s1 s3.
  Proof.
    intros ((A1 & A1') & A2 & A3 & A4 & A5) ((B1 & B1') & B2 & B3 & B4 & B5).
    split; [split; congruence|]. split; [intros k i j; rewrite B2; apply A2|].
    repeat split; congruence.
  Qed.

  Definition over_at (s : sim) (e : rec) : Prop := over s (e_ind e) (e_i e) (e_j e).

  Definition record_moved (s : sim) (nn : nat) (e : rec) (s' : sim) : Prop :=
    ready s' /\ quiet s s' /\ loses s s' /\
    (forall k i j, layer k -> over s' k i j -> over s k i j) /\
    exists (h' : Z) l,
      records s' = list_set (records s) nn (rec_with_h e h') ++ l /\
      (over_at s' e -> h' = 0) /\
      Forall (fun x => layer (e_ind x) /\ ~ over_at s' x) l /\
      (length l <= 8 * Z.to_nat (nx s + ny s))%nat /\
      (~ over_at s e -> l = []).

  Lemma list_set_id {X} (l : list X) n x : nth_error l n = Some x -> list_set l n x = l.
  Proof.
    revert n. induction l as [|y l IH]; intros [|n]; cbn; try discriminate.
    - intros [= ->]. auto.
    - intros H. f_equal. auto.
  Qed.

  Lemma rec_with_h_id (e : rec) : rec_with_h e (e_h e) = e.
  Proof. destruct e. reflexivity. Qed.

  Lemma record_moved_same (s : sim) nn (e : rec) :
    ready s -> nth_error (records s) nn = Some e -> ~ over_at s e ->
    record_moved s nn e s.
  Proof.
    intros R Hn No. split; auto. split; [apply quiet_refl|]. split; [apply loses_refl|].
    split; auto. exists (e_h e), []. rewrite rec_with_h_id, list_set_id, app_nil_r by auto.
    repeat split; auto; [tauto|cbn; lia].
  Qed.

  Lemma move_record_good fuel (s : sim) nn (e : rec) dirs :
    ready s -> nth_error (records s) nn = Some e -> Permutation dirs directions8 ->
    nx s + ny s <= Z.of_nat fuel ->
    returns (move_record (A := ZNum upm) frame tol fuel nn e s dirs)
      (fun p => record_moved s nn e (fst p) /\ Permutation (snd p) directions8).
  Proof.
    intros R Hn P Hf. unfold move_record.
    pose proof R as [HI Hfr]. pose proof HI as (N1 & N2 & H1 & H2).
    assert (Hok : rec_ok near cz s e)
      by (eapply Forall_forall; [exact H2|]; eapply nth_error_In; eauto).
    pose proof Hok as (Hk & Hin & Hpos & Aeh & Hnear).
    assert (Hg : on_grid s (e_i e) (e_j e)) by (unfold inside, on_grid in *; lia).
    set (k := e_ind e) in *. set (i := e_i e) in *. set (j := e_j e) in *.
    assert (Et : (if k =? 0 then 2 else 0) = 2 - k)
      by (destruct Hk as [->| ->]; reflexivity).
    rewrite Et.
    apply returns_guard.
    { rewrite (proj2 (inb_true s i j) Hg). destruct Hk as [->| ->]; reflexivity. }
    destruct (H1 i j Hg) as ([_ A1] & [A2 _] & A3).
    destruct (A3 k Hk) as [B1 B2].
    pose proof (recorded_in _ nn e (rec_ok_nonneg _ _ _ _ H2) Hn) as Hle. fold k i j in Hle.
    destruct (A1 (2 - k)) as [At _]; [unfold layer in Hk; lia|].
    destruct (A1 (k + 1)) as [Ab As]; [unfold layer in Hk; lia|].
    destruct (body_absent s (2 - k) i j) eqn:Ea.
    { apply body_absent_true in Ea. cbn. split; auto. apply record_moved_same; auto.
      unfold over_at, over. fold k i j. tauto. }
    apply body_absent_spec in Ea. zn.
    destruct ((body s k i j <? body s (2 - k) i j) &&
              (body s (2 - k) i j <? body_soil s (k + 1) i j - tol)) eqn:Ec.
    2: { cbn. split; auto. apply record_moved_same; auto.
      unfold over_at, over. fold k i j. intros (O1 & O2 & O3 & O4).
      pose proof (aligned_lt cz _ _ ltac:(lia) At As O4).
      rewrite (proj2 (Z.ltb_lt _ _)) in Ec by auto. cbn in Ec. apply Z.ltb_ge in Ec. lia. }
    apply andb_true_iff in Ec as [Ec1 Ec2]. apply Z.ltb_lt in Ec1, Ec2.
    set (h0 := (body_soil s (k + 1) i j : Z) - body s (2 - k) i j).
    set (h := if e_h e <? h0 then (e_h e : Z) else h0).
    set (s1 := set_bs (A := ZNum upm)
                 (set_record_h (A := ZNum upm) s nn e ((e_h e : Z) - h)) (k + 1) i j
                 ((body_soil s (k + 1) i j : Z) - h)).
    assert (E1 : (let '(h, s) :=
         if e_h e <? h0 then (e_h e, set_record_h (A := ZNum upm) s nn e 0)
         else (h0, set_record_h (A := ZNum upm) s nn e (e_h e - h0)) in
         (h, set_bs (A := ZNum upm) s (k + 1) i j ((body_soil s (k + 1) i j : Z) - h)))
         = (h, s1)).
    { unfold h, s1, h. destruct (e_h e <? h0); [rewrite Z.sub_diag|]; reflexivity. }
    assert (Hh : 0 <= h <= (e_h e : Z) /\ h <= h0 /\ aligned cz h).
    { unfold h. destruct (Z.ltb_spec (e_h e) h0).
      - split; [lia|]. split; [lia|auto].
      - split; [lia|]. split; [lia|]. apply aligned_sub; auto. }
    destruct Hh as (Hh & Hh0 & Ah).
    assert (Hset : soil_set s s1 k i j (taken_lo s k i j h) (taken_hi s k i j h) /\
                   (soil_on s k i j \/ e_h e = 0)).
    { unfold taken_lo, taken_hi.
      assert (Hc : h < soil_height s k i j /\ soil_on s k i j \/
        h = 0 /\ e_h e = 0 /\ soil_height s k i j = 0 /\
        (body_soil s k i j : Z) = 0 /\ (body_soil s (k + 1) i j : Z) = 0).
      { destruct (soil_present s k i j) eqn:E.
        - apply soil_present_spec in E. left. split; auto.
          destruct (B1 E) as (Hbk & C & _). destruct (A2 k Hk Hbk) as [_ L].
          pose proof R as [(_ & _ & H1' & _) _]. destruct (H1' i j Hg) as (_ & [_ A2'] & _).
          assert (Lk : layer (2 - k)) by (unfold layer in *; lia).
          destruct (A2 (2 - k) Lk Ea) as [_ L'].
          unfold soil_height. rewrite C. unfold h0 in Hh0.
          destruct Hk as [K|K]; rewrite K in *; kred; specialize (A2' ltac:(auto) ltac:(auto)); lia.
        - apply soil_present_false in E as [E1' E2]. right.
          assert (soil_height s k i j = 0) by (unfold soil_height; lia).
          assert (e_h e = 0) by (zn; lia). repeat split; auto. zn; lia. }
      destruct Hc as [[Hc So]|(Hc & Ce & Cs & C0 & C1)].
      - rewrite (proj2 (Z.ltb_lt _ _)) by auto. split; [|auto].
        unfold s1. split; [split; auto|].
        split; [intros i' j'; auto|]. split; [intros k' i' j'; auto|]. upds.
        split; [|split].
        + eqbs; auto; lia.
        + rewrite !Z.eqb_refl. reflexivity.
        + intros k' i' j' Nn. eqbs; auto; tauto.
      - rewrite Cs, Hc. cbn [Z.ltb Z.compare]. split; [|auto].
        unfold s1. split; [split; auto|].
        split; [intros i' j'; auto|]. split; [intros k' i' j'; auto|]. upds.
        rewrite Hc in *.
        split; [|split].
        + eqbs; auto; lia.
        + rewrite !Z.eqb_refl. cbn. lia.
        + intros k' i' j' Nn. eqbs; auto; tauto. }
    destruct Hset as [Hset Hso].
    destruct (consistent_take near cz s s1 (records s) nn e h ltac:(lia) HI Hn Hh Ah Hset)
      as (C1 & C2 & _).
    pose proof Hset as (S1 & S2 & S3 & S4 & S5 & S6).
    assert (R1 : ready s1) by (split; [exact C1|eapply frame_near_beq; eauto]).
    assert (O1 : forall k' i' j', layer k' -> over s1 k' i' j' -> over s k' i' j').
    { intros k' i' j' Hk' O.
      assert (C : (k' = k /\ i' = i /\ j' = j) \/ ~ (k' = k /\ i' = i /\ j' = j)) by lia.
      destruct C as [(-> & -> & ->)|C].
      - destruct O as (Os & Ob & Ol & Oo).
        assert (Ebs : (body_soil s1 (k + 1) i j : Z) = (body_soil s (k + 1) i j : Z) - h)
          by (unfold s1; upds; rewrite !Z.eqb_refl; reflexivity).
        rewrite Ebs in Oo. rewrite !S3 in Oo. 
        destruct Hso as [Hso|Hso]; [|].
        + split; [auto|]. split; [auto|]. split; [auto|]. lia.
        + split; [|split; [auto|]; split; [auto|]; lia].
          destruct (soil_present s k i j) eqn:E; [apply soil_present_spec; auto|].
          exfalso. apply soil_present_false in E as [E1' E2'].
          unfold soil_on in Os. rewrite Ebs in Os.
          assert (Ebs0 : (body_soil s1 k i j : Z) = (body_soil s k i j : Z)).
          { unfold s1; upds. eqbs; auto; lia. }
          rewrite Ebs0 in Os. zn. lia.
      - destruct (soil_set_other_layer _ _ _ _ _ _ _ k' i' j' Hset Hk Hk' C) as [F1 F2].
        unfold over, soil_on, body_at in *. rewrite F1, F2, !S3 in O. auto. }
    assert (O2 : over_at s1 e -> (e_h e : Z) - h = 0).
    { intros (_ & _ & _ & O). fold k i j in O.
      assert (Ebs : (body_soil s1 (k + 1) i j : Z) = (body_soil s (k + 1) i j : Z) - h)
          by (unfold s1; upds; rewrite !Z.eqb_refl; reflexivity).
      rewrite Ebs, S3 in O. unfold h in *. destruct (e_h e <? h0); lia. }
    match goal with |- context [if e_h e <? h0 then ?a else ?b] =>
      replace (if e_h e <? h0 then a else b)
        with (h, set_record_h (A := ZNum upm) s nn e ((e_h e : Z) - h))
        by (unfold h; destruct (e_h e <? h0); [rewrite Z.sub_diag|]; reflexivity)
    end.
    change (set_bs (A := ZNum upm) (set_record_h (A := ZNum upm) s nn e ((e_h e : Z) - h))
      (k + 1) i j _) with s1.
    destruct (shuffle dirs (rng s1)) as [dirs' r] eqn:Sh.
    apply shuffle_eq in Sh.
    assert (P' : Permutation dirs' directions8) by (rewrite Sh; auto).
    eapply returns_bind.
    - apply explore_all_moves0 with (s := set_rng s1 r); auto.
      + apply Forall_forall. intros d Hd. eapply Permutation_in; eauto.
      + lia.
    - intros [s2 h2] [M Mz]. cbn [fst snd] in M, Mz. rewrite (Permutation_length P') in M.
      destruct M as (M1 & M2 & M3 & M4 & M5 & M6 & M7 & M8 & M9 & M10 & M11 & l & M12 & M13 & M14).
      cbn [returns fst snd]. split; [|auto].
      assert (Et2 : total_soil (set_rng s1 r) = total_soil s1) by reflexivity.
      set (s3 := if tol <? h2 then warn s2 WRemoved else s2).
      assert (SH : same_heights s2 s3 /\ records s3 = records s2 /\
        body_area s3 = body_area s2 /\ relax_area s3 = relax_area s2 /\
        impact_area s3 = impact_area s2 /\
        wlog s3 = wlog s2 ++ repeat WRemoved (if tol <? h2 then 1%nat else 0%nat)).
      { unfold s3. destruct (tol <? h2); cbn; rewrite ?app_nil_r; repeat split. }
      destruct SH as (SH & SR & SA & SB & SC & SW).
      pose proof SH as (SH1 & SH2 & SH3 & SH4).
      assert (OE : forall k' i' j', over s3 k' i' j' -> over s2 k' i' j').
      { intros k' i' j'. unfold over, soil_on, body_at. rewrite !SH3, !SH4. auto. }
      split. { split; [rewrite SR; eapply consistent_same; eauto; apply M1|].
               eapply frame_near_beq; [| |apply M1]; auto. }
      split.
      { eapply quiet_trans with (s2 := s2).
        - split; [exact M2|]. split; [exact M3|]. auto.
        - split; auto. }
      split.
      { exists h2, (if tol <? h2 then 1%nat else 0%nat).
        rewrite (total_soil_same _ _ SH), SW, M7. split; [lia|]. split; [lia|].
        split; [reflexivity|].
        destruct (Z.ltb_spec tol h2); [lia|]. split; [intros _|auto].
        assert (h2 <= 0); [|lia].
        apply aligned_le with (cz := cz) (t := tol); auto; try lia. apply aligned_0. }
      split; [intros k' i' j' Lk O; apply O1; auto; apply (M11 k' i' j'); auto|].
      exists ((e_h e : Z) - h), l.
      rewrite SR, M12. split; [reflexivity|].
      split; [intros O; apply O2; apply M11; [auto|]; apply OE; auto|].
      split; [eapply Forall_impl; [|exact M14]; intros x [L X]; split; auto; intros O; apply X, OE, O|].
      split; [exact M13|].
      intros No. destruct Hso as [Hso|Hso].
      + exfalso. apply No. split; [auto|]. split; [auto|]. split; [auto|]. fold k i j. lia.
      + assert (Ez : h = 0) by (zn; lia). specialize (Mz Ez).
        rewrite M12 in Mz. rewrite <- (app_nil_r (records (set_rng s1 r))) in Mz at 2.
        apply app_inv_head in Mz. auto.
  Qed.

  (** ** The loop *)

  Definition over_inv (n0 nn : nat) (s : sim) : Prop :=
    ready s /\ (n0 <= length (records s))%nat /\
    (forall m e, nth_error (records s) m = Some e -> (n0 <= m)%nat -> ~ over_at s e) /\
    (forall m e, nth_error (records s) m = Some e -> (m < nn)%nat -> over_at s e ->
       (e_h e : Z) = 0).

  Lemma over_inv_step n0 nn s e s' :
    over_inv n0 nn s -> nth_error (records s) nn = Some e -> record_moved s nn e s' ->
    over_inv n0 (S nn) s' /\
    (n0 <= nn -> length (records s') = length (records s))%nat.
  Proof.
    intros (R & L & I1 & I2) Hn (R' & Q & _ & O & h' & l & Er & Oz & Fl & Ll & Ln).
    assert (Layers : forall m x, nth_error (records s') m = Some x -> layer (e_ind x)).
    { intros m x Hx. destruct R' as [(_ & _ & _ & H2) _].
      eapply Forall_forall in H2; [|eapply nth_error_In; eauto]. apply H2. }
    assert (Hnn : (nn < length (records s))%nat) by (apply nth_error_Some; congruence).
    assert (Old : forall m x, nth_error (records s') m = Some x -> (m < length (records s))%nat ->
      m <> nn -> nth_error (records s) m = Some x).
    { intros m x Hx Hm Nm. rewrite Er in Hx.
      rewrite nth_error_app1 in Hx by (rewrite list_set_length; auto).
      rewrite nth_error_list_set in Hx.
      destruct (Nat.eqb_spec m nn); cbn in Hx; [tauto|auto]. }
    assert (Cur : forall x, nth_error (records s') nn = Some x -> x = rec_with_h e h').
    { intros x Hx. rewrite Er in Hx.
      rewrite nth_error_app1 in Hx by (rewrite list_set_length; auto).
      rewrite nth_error_list_set, Nat.eqb_refl in Hx.
      destruct (Nat.ltb_spec nn (length (records s))); [|lia].
      cbn in Hx. congruence. }
    split; [split; [auto|split; [|split]]|].
    - rewrite Er, app_length, list_set_length. lia.
    - intros m x Hx Hm Ov. pose proof (Layers _ _ Hx) as Lx.
      destruct (Nat.lt_ge_cases m (length (records s))) as [Hl|Hl].
      + destruct (Nat.eq_dec m nn) as [->|Nm].
        * apply Cur in Hx. subst x. cbn in *.
          apply (I1 _ _ Hn Hm). apply O; auto.
        * apply (I1 _ _ (Old _ _ Hx Hl Nm) Hm). apply O; auto.
      + rewrite Er, nth_error_app2 in Hx by (rewrite list_set_length; auto).
        apply nth_error_In in Hx. eapply Forall_forall in Fl; eauto. cbn in Fl. tauto.
    - intros m x Hx Hm Ov. pose proof (Layers _ _ Hx) as Lx.
      destruct (Nat.eq_dec m nn) as [->|Nm].
      + apply Cur in Hx. subst x. cbn. apply Oz. auto.
      + apply (I2 m x); [apply Old; auto; lia|lia|]. apply O; auto.
    - intros Hn0. rewrite Er, Ln, app_nil_r, list_set_length; auto.
      apply (I1 _ _ Hn); auto.
  Qed.

  (** Fuel that is always enough for [n] records on the grid of [s]. *)
  Definition records_fuel (s : sim) (n : nat) : nat :=
    n * (1 + 8 * Z.to_nat (nx s + ny s)).

  Lemma move_records_good walk_fuel n0 fuel :
    forall nn (s : sim) dirs,
    over_inv n0 nn s -> Permutation dirs directions8 ->
    nx s + ny s <= Z.of_nat walk_fuel ->
    (length (records s) - nn + (n0 - nn) * (8 * Z.to_nat (nx s + ny s)) <= fuel)%nat ->
    returns (move_records (A := ZNum upm) frame tol fuel walk_fuel nn s dirs)
      (fun s' => ready s' /\ quiet s s' /\ loses s s' /\ soil_below s').
  Proof.
    induction fuel as [|fuel IH]; intros nn s dirs I P Hw Hf; cbn [move_records].
    all: destruct (nth_error (records s) nn) as [e|] eqn:En.
    2, 4: cbn; pose proof I as (R & _ & _ & I2); split; [auto|]; split; [apply quiet_refl|];
      split; [apply loses_refl|].
    2, 3: apply soil_below_over; intros k i j Hg Hk Ov;
      destruct R as [(_ & _ & H1 & H2) _]; destruct (H1 i j Hg) as (_ & [A2 A2'] & A3);
      destruct (A3 k Hk) as [B1 B2]; pose proof Ov as (O1 & O2 & O3 & O4);
      destruct (B1 O1) as (B3 & B4 & _).
    2, 3: assert (Hz : recorded (records s) k i j = 0).
    2, 4: apply nth_error_None in En.
    2, 3: assert (I3 : forall e, In e (records s) -> over_at s e -> (e_h e : Z) = 0)
      by (intros e He; apply In_nth_error in He as [m Hm];
          assert (m < length (records s))%nat by (apply nth_error_Some; congruence);
          apply (I2 m e Hm); lia).
    2, 3: clear -I3 Ov; induction (records s) as [|x l IH]; cbn [recorded]; auto;
      rewrite IH by (intros e He; apply I3; right; auto);
      destruct (matches x k i j) eqn:M; auto; apply matches_spec in M as (<- & <- & <-);
      rewrite I3; auto; left; auto.
    2, 3: exfalso; assert (Lk : layer (2 - k)) by (unfold layer in *; lia);
      destruct (A2 k Hk B3) as [_ L1]; destruct (A2 (2 - k) Lk O2) as [_ L2];
      rewrite Hz in B2; unfold soil_height in B2; rewrite B4 in B2;
      destruct Hk as [-> | ->]; kred; specialize (A2' ltac:(auto) ltac:(auto)); zn; lia.
    - exfalso. assert (nn < length (records s))%nat by (apply nth_error_Some; congruence). lia.
    - eapply returns_bind; [apply move_record_good; auto; apply I|].
      intros [s1 dirs1] [M P1]. cbn [fst snd] in M, P1.
      destruct (over_inv_step _ _ _ _ _ I En M) as [I' Ln].
      pose proof M as (_ & Q & Lo & _ & h' & l & Er & _ & _ & Ll & _).
      pose proof Q as ((E1 & E2) & _).
      assert (nn < length (records s))%nat by (apply nth_error_Some; congruence).
      eapply returns_weaken; [apply IH; auto|].
      + lia.
      + rewrite E1, E2. set (B := (8 * Z.to_nat (nx s + ny s))%nat) in *.
        destruct (Nat.lt_ge_cases nn n0) as [Hlt|Hge].
        * assert (length (records s1) = length (records s) + length l)%nat
            by (rewrite Er, app_length, list_set_length; auto).
          replace (n0 - nn)%nat with (S (n0 - S nn)) in Hf by lia. cbn [Nat.mul] in Hf. lia.
        * rewrite Ln by auto. replace (n0 - S nn)%nat with 0%nat by lia. cbn [Nat.mul]. lia.
      + cbn. intros s2 (A1 & A2 & A3 & A4). split; [auto|].
        split; [eapply quiet_trans; eauto|]. split; [eapply loses_trans; eauto|auto].
  Qed.

  Theorem move_intersecting_body_soil_good fuel (s : sim) :
    ready s -> nx s + ny s <= Z.of_nat fuel ->
    (records_fuel s (length (records s)) <= fuel)%nat ->
    returns (move_intersecting_body_soil (A := ZNum upm) frame tol fuel s)
      (fun s' => ready s' /\ quiet s s' /\ loses s s' /\ soil_below s').
  Proof.
    intros R Hf1 Hf2. unfold move_intersecting_body_soil.
    apply move_records_good with (n0 := length (records s)); auto.
    - split; auto. split; auto. split; [|intros; lia].
      intros m e Hm Hn. assert (m < length (records s))%nat by (apply nth_error_Some; congruence).
      lia.
    - unfold records_fuel in Hf2. lia.
  Qed.
End IntersectSoil.
