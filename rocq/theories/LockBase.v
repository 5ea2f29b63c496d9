(** Two runs of the simulator side by side: one in an arithmetic [A], one on exact
    heights. What is asked of the arithmetic, and the relation between the states. *)
From Coq Require Import ZArith List Bool Lia.
From Verif Require Import Outcome Num State Base Spec.
Import ListNotations.
Open Scope Z_scope.

(** If the exact call returns, so does the other one, and the results are related. *)
Definition sync {X Y} (R : X -> Y -> Prop) (a : outcome X) (s : outcome Y) : Prop :=
  match s with
  | Ok y => exists x, a = Ok x /\ R x y
  | _ => True
  end.

Lemma sync_ok {X Y} (R : X -> Y -> Prop) x y : R x y -> sync R (Ok x) (Ok y).
Proof. intros H. exists x. auto. Qed.

Lemma sync_bind {X Y X' Y'} (R : X -> Y -> Prop) (S : X' -> Y' -> Prop) a s ka ks :
  sync R a s -> (forall x y, s = Ok y -> R x y -> sync S (ka x) (ks y)) ->
  sync S (bind a ka) (bind s ks).
Proof.
  destruct s as [y| |]; cbn; auto. intros (x & -> & H) K. cbn. apply K; auto.
Qed.

Lemma sync_guard {X Y} (R : X -> Y -> Prop) b b' a s :
  b = b' -> (b' = true -> sync R a s) -> sync R (guard b a) (guard b' s).
Proof. intros -> H. destruct b'; cbn; auto. Qed.

Lemma sync_weaken {X Y} (R S : X -> Y -> Prop) a s :
  sync R a s -> (forall x y, s = Ok y -> R x y -> S x y) -> sync S a s.
Proof.
  destruct s as [y| |]; cbn; auto. intros (x & E & H) K. exists x. auto.
Qed.

(** Loops; [I] is an invariant of the exact run. *)
Lemma sync_for_each {X Sa Ss} (R : Sa -> Ss -> Prop) (I : Ss -> Prop) l
  (fa : X -> Sa -> outcome Sa) (fs : X -> Ss -> outcome Ss) :
  (forall x a s, In x l -> R a s -> I s -> sync R (fa x a) (fs x s)) ->
  (forall x s, In x l -> I s -> partial (fs x s) I) ->
  forall a s, R a s -> I s -> sync R (for_each l fa a) (for_each l fs s).
Proof.
  induction l as [|x l IH]; intros H1 H2 a s HR HI; cbn [for_each].
  - apply sync_ok; auto.
  - eapply sync_bind; [apply H1; cbn; auto|].
    intros a' s' E HR'. apply IH; auto.
    + intros; apply H1; cbn; auto.
    + intros; apply H2; cbn; auto.
    + eapply partial_ok; [|exact E]. apply H2; cbn; auto.
Qed.

(** With an invariant that depends on what is left to do. *)
Lemma sync_for_each_rest {X Sa Ss} (R : Sa -> Ss -> Prop) (I : list X -> Ss -> Prop) l
  (fa : X -> Sa -> outcome Sa) (fs : X -> Ss -> outcome Ss) :
  (forall x r a s, R a s -> I (x :: r) s -> sync R (fa x a) (fs x s)) ->
  (forall x r s, I (x :: r) s -> partial (fs x s) (I r)) ->
  forall a s, R a s -> I l s -> sync R (for_each l fa a) (for_each l fs s).
Proof.
  intros H1 H2. induction l as [|x l IH]; intros a s HR HI; cbn [for_each].
  - apply sync_ok; auto.
  - eapply sync_bind; [eapply H1; eauto|].
    intros a' s' E HR'. apply IH; auto.
    eapply partial_ok; [|exact E]. apply H2; auto.
Qed.

(** Two lists of records that differ in the elements only. *)
Lemma sync_for_each2 {Xa Xs Sa Ss} (Q : Xa -> Xs -> Prop) (R : Sa -> Ss -> Prop)
  (I : list Xs -> Ss -> Prop) la ls
  (fa : Xa -> Sa -> outcome Sa) (fs : Xs -> Ss -> outcome Ss) :
  Forall2 Q la ls ->
  (forall xa x r a s, Q xa x -> R a s -> I (x :: r) s -> sync R (fa xa a) (fs x s)) ->
  (forall x r s, I (x :: r) s -> partial (fs x s) (I r)) ->
  forall a s, R a s -> I ls s -> sync R (for_each la fa a) (for_each ls fs s).
Proof.
  intros HQ H1 H2. induction HQ as [|xa x la ls Hx HQ IH]; intros a s HR HI; cbn [for_each].
  - apply sync_ok; auto.
  - eapply sync_bind; [eapply H1; eauto|].
    intros a' s' E HR'. apply IH; auto.
    eapply partial_ok; [|exact E]. apply H2; auto.
Qed.

(** An arithmetic that agrees with the exact one on heights that are multiples of the
    cell height [l_cz] and at most [8 * l_K], [l_H] bounding those of the body. *)
Record locked (A : Num) : Type := mkLocked {
  l_ticks : Z;
  l_dist : Hgt A -> Z -> Z;
  l_V : F A -> Z -> Prop;              (* is the same height *)
  l_Vd : F A -> Z -> Prop;             (* is the same distance *)
  l_phi : Z -> F A;                    (* the height, in the arithmetic *)
  l_okh : Hgt A -> Prop;               (* the heights of carried soil considered *)
  l_cA : F A;
  l_tA : F A;                          (* cell height and tolerance *)
  l_cz : Z;
  l_tz : Z;
  l_K : Z;
  l_H : Z;
  l_cz_pos : 0 < l_cz;
  l_tz_pos : 0 < l_tz;
  l_half : 2 * l_tz < l_cz;
  l_HK : 0 <= l_H <= l_K;
  l_czK : 2 * l_cz <= l_K;
  l_aligned : forall a x, l_V a x -> (l_cz | x);
  l_0 : l_V f0 0;
  l_phi0 : l_phi 0 = f0;
  l_add : forall a b x y, l_V a x -> l_V b y -> Z.abs (x + y) <= 8 * l_K ->
            l_V (fadd a b) (x + y);
  l_sub : forall a b x y, l_V a x -> l_V b y -> Z.abs (x - y) <= 8 * l_K ->
            l_V (fsub a b) (x - y);
  l_abs : forall a x, l_V a x -> l_V (fabs a) (Z.abs x);
  l_lt : forall a b x y, l_V a x -> l_V b y -> fltb a b = (x <? y);
  l_eq : forall a b x y, l_V a x -> l_V b y -> feqb a b = (x =? y);
  l_lt_add : forall a b x y, l_V a x -> l_V b y -> Z.abs x <= 8 * l_K ->
            fltb (fadd a l_tA) b = (x + l_tz <? y);
  l_gt_sub : forall a b x y, l_V a x -> l_V b y -> Z.abs x <= 8 * l_K ->
            fltb b (fsub a l_tA) = (y <? x - l_tz);
  l_gt_add : forall a b x y, l_V a x -> l_V b y -> Z.abs x <= 8 * l_K -> Z.abs y <= l_H ->
            fltb b (fadd a l_tA) = (y <? x + l_tz);
  l_lt_sub : forall a b x y, l_V a x -> l_V b y -> Z.abs x <= 8 * l_K -> Z.abs y <= l_H ->
            fltb (fsub a l_tA) b = (x - l_tz <? y);
  l_lt_tol : forall a x, l_V a x -> fltb a l_tA = (x <? l_tz);
  l_gt_tol : forall a x, l_V a x -> fltb l_tA a = (l_tz <? x);
  l_mid : forall d a b v x y, l_V d v -> l_V a x -> l_V b y ->
            Z.abs v <= l_K -> Z.abs x <= l_K -> Z.abs y <= l_K ->
            l_V (f_mid d a b l_tA l_cA) (l_cz * ((v + x + y + 2 * l_tz) / (2 * l_cz)));
  l_below : forall a x, l_V a x -> Z.abs x <= l_K ->
            f_below a l_cA = (10 * x <? 9 * l_cz);
  l_snap : forall a x, l_V a x -> Z.abs x <= l_K -> l_V (f_snap a l_cA) x;
  l_near : forall z b, l_okh z -> Z.abs b <= l_H -> (l_cz | b) ->
            fltb (f_dist z (l_phi b)) (fadd l_cA l_tA) = (l_dist z b <? l_cz + l_tz);
  l_closer : forall z b c d, l_okh z -> Z.abs b <= l_H -> (l_cz | b) -> l_Vd c d ->
            fltb (f_dist z (l_phi b)) c = (l_dist z b <? d) /\
            (l_dist z b < d -> l_Vd (f_dist z (l_phi b)) (l_dist z b));
  l_same : forall a b x y, l_Vd a x -> l_Vd b y -> feqb a b = (x =? y)
}.
Arguments l_ticks {A} _.
Arguments l_dist {A} _ _ _.
Arguments l_V {A} _ _ _.
Arguments l_Vd {A} _ _ _.
Arguments l_phi {A} _ _.
Arguments l_okh {A} _ _.
Arguments l_cA {A} _.
Arguments l_tA {A} _.
Arguments l_cz {A} _.
Arguments l_tz {A} _.
Arguments l_K {A} _.
Arguments l_H {A} _.

(** The exact heights; the positions in the body frame and the heights of carried soil
    are those of the arithmetic. *)
Definition exact {A} (L : locked A) : units :=
  mkUnits (l_ticks L) (Pos A) (Hgt A) (l_dist L).

Section Lock.
  Context {A : Num}.
  Variable L : locked A.
  Local Notation N := (ZNum (exact L)).
  Local Notation V := (l_V L).
  Local Notation K := (l_K L).
  Local Notation H := (l_H L).
  Local Notation cz := (l_cz L).
  Local Notation tz := (l_tz L).

  (** The same height, at most [n * K]. *)
  Definition W (n : Z) (a : F A) (x : Z) : Prop := V a x /\ Z.abs x <= n * K.
  (** The same height of the body. *)
  Definition WB (a : F A) (x : Z) : Prop := V a x /\ a = l_phi L x /\ Z.abs x <= H.

  Lemma K_pos : 0 <= K.
  Proof. pose proof (l_HK _ L). lia. Qed.

  Lemma W_le n m a x : W n a x -> n <= m -> W m a x.
  Proof. intros [H1 H2] Hn. split; auto. pose proof K_pos. nia. Qed.
  Lemma W_0 n : 0 <= n -> W n f0 (@f0 N).
  Proof. intros Hn. split; [apply l_0|]. pose proof K_pos. cbn. nia. Qed.
  Lemma WB_W a x : WB a x -> W 1 a x.
  Proof. intros (H1 & _ & H2). split; auto. pose proof (l_HK _ L). lia. Qed.
  Lemma W_add n m a b x y : W n a x -> W m b y -> n + m <= 8 -> W (n + m) (fadd a b) (@fadd N x y).
  Proof.
    intros [H1 H2] [H3 H4] Hn. pose proof K_pos. split; [apply l_add; auto|cbn]; nia.
  Qed.
  Lemma W_sub n m a b x y : W n a x -> W m b y -> n + m <= 8 -> W (n + m) (fsub a b) (@fsub N x y).
  Proof.
    intros [H1 H2] [H3 H4] Hn. pose proof K_pos. split; [apply l_sub; auto|cbn]; nia.
  Qed.
  Lemma W_abs n a x : W n a x -> W n (fabs a) (@fabs N x).
  Proof. intros [H1 H2]. split; [apply l_abs; auto|cbn]. lia. Qed.
  Lemma W_lt n m a b x y : W n a x -> W m b y -> fltb a b = @fltb N x y.
  Proof. intros [H1 _] [H2 _]. apply (l_lt _ L); auto. Qed.
  Lemma W_eq n m a b x y : W n a x -> W m b y -> feqb a b = @feqb N x y.
  Proof. intros [H1 _] [H2 _]. apply (l_eq _ L); auto. Qed.
  Lemma W_lt_add n m a b x y : W n a x -> W m b y -> n <= 8 ->
    fltb (fadd a (l_tA L)) b = @fltb N (@fadd N x tz) y.
  Proof. intros [H1 H3] [H2 _] Hn. pose proof K_pos. apply (l_lt_add _ L); auto. nia. Qed.
  Lemma W_gt_sub n m a b x y : W n a x -> W m b y -> n <= 8 ->
    fltb b (fsub a (l_tA L)) = @fltb N y (@fsub N x tz).
  Proof. intros [H1 H3] [H2 _] Hn. pose proof K_pos. apply (l_gt_sub _ L); auto. nia. Qed.
  Lemma W_gt_add n a b x y : W n a x -> WB b y -> n <= 8 ->
    fltb b (fadd a (l_tA L)) = @fltb N y (@fadd N x tz).
  Proof. intros [H1 H3] (H2 & _ & H4) Hn. pose proof K_pos. apply (l_gt_add _ L); auto. nia. Qed.
  Lemma W_lt_sub n a b x y : W n a x -> WB b y -> n <= 8 ->
    fltb (fsub a (l_tA L)) b = @fltb N (@fsub N x tz) y.
  Proof. intros [H1 H3] (H2 & _ & H4) Hn. pose proof K_pos. apply (l_lt_sub _ L); auto. nia. Qed.
  Lemma W_lt_tol n a x : W n a x -> fltb a (l_tA L) = @fltb N x tz.
  Proof. intros [H1 _]. apply (l_lt_tol _ L); auto. Qed.
  Lemma W_gt_tol n a x : W n a x -> fltb (l_tA L) a = @fltb N tz x.
  Proof. intros [H1 _]. apply (l_gt_tol _ L); auto. Qed.
  Lemma W_mid d a b v x y : W 1 d v -> W 1 a x -> W 1 b y ->
    W 2 (f_mid d a b (l_tA L) (l_cA L)) (@f_mid N v x y tz cz).
  Proof.
    intros [H1 H2] [H3 H4] [H5 H6].
    split; [apply l_mid; auto; lia|cbn].
    pose proof (l_cz_pos _ L). pose proof (l_tz_pos _ L). pose proof (l_half _ L).
    pose proof (l_czK _ L).
    set (n := v + x + y + 2 * tz). assert (Z.abs n <= 3 * K + 2 * tz) by lia.
    pose proof (Z.div_mod n (2 * cz) ltac:(lia)).
    pose proof (Z.mod_pos_bound n (2 * cz) ltac:(lia)). nia.
  Qed.
  Lemma WB_min a b x y : WB a x -> WB b y -> WB (fmin a b) (fmin (A := N) x y).
  Proof.
    intros H1 H2. unfold fmin. rewrite (W_lt 1 1 _ _ _ _ (WB_W _ _ H2) (WB_W _ _ H1)).
    destruct (@fltb N y x); auto.
  Qed.
  Lemma WB_max a b x y : WB a x -> WB b y -> WB (fmax a b) (fmax (A := N) x y).
  Proof.
    intros H1 H2. unfold fmax. rewrite (W_lt 1 1 _ _ _ _ (WB_W _ _ H1) (WB_W _ _ H2)).
    destruct (@fltb N x y); auto.
  Qed.
  Lemma W_if n (b : bool) a a' x x' : W n a x -> W n a' x' ->
    W n (if b then a else a') (if b then x else x').
  Proof. destruct b; auto. Qed.

  (** The same record; the same state. *)
  Definition relr (n : Z) (e : rec_t A) (e' : rec_t N) : Prop :=
    e_ind e = e_ind e' /\ e_i e = e_i e' /\ e_j e = e_j e' /\ e_pos e = e_pos e' /\
    W n (e_h e) (e_h e').

  Record rel (n : Z) (a : sim A) (s : sim N) : Prop := mkRel {
    rel_nx : nx a = nx s;
    rel_ny : ny a = ny s;
    rel_equilibrium : equilibrium a = equilibrium s;
    rel_t : forall i j, on_grid s i j -> W n (terrain a i j) (terrain s i j);
    rel_b : forall k i j, 0 <= k < 4 -> on_grid s i j -> WB (body a k i j) (body s k i j);
    rel_bs : forall k i j, 0 <= k < 4 -> on_grid s i j ->
      W n (body_soil a k i j) (body_soil s k i j);
    rel_records : Forall2 (relr n) (records a) (records s);
    rel_body_area : body_area a = body_area s;
    rel_relax_area : relax_area a = relax_area s;
    rel_impact_area : impact_area a = impact_area s;
    rel_rng : rng a = rng s;
    rel_wlog : wlog a = wlog s
  }.

  Lemma relr_le n m e e' : n <= m -> relr n e e' -> relr m e e'.
  Proof. intros Hn (H1 & H2 & H3 & H4 & H5). repeat split; auto; eapply W_le; eauto. Qed.

  Lemma rel_le n m a s : n <= m -> rel n a s -> rel m a s.
  Proof.
    intros Hn []. constructor; auto.
    - intros. eapply W_le; eauto.
    - intros. eapply W_le; eauto.
    - clear - rel_records0 Hn. induction rel_records0; constructor; auto.
      eapply relr_le; eauto.
  Qed.

  (** The heights of the exact state are at most [K]. *)
  Definition bounded (s : sim N) : Prop :=
    (forall i j, on_grid s i j -> Z.abs (terrain s i j) <= K) /\
    (forall k i j, 0 <= k < 4 -> on_grid s i j -> Z.abs (body_soil s k i j) <= K) /\
    Forall (fun e : rec_t N => Z.abs (e_h e) <= K) (records s).

  Lemma W_one n a x : W n a x -> Z.abs x <= K -> W 1 a x.
  Proof. intros [H1 _] H2. split; auto. lia. Qed.

  Lemma relr_one n e (e' : rec_t N) : relr n e e' -> Z.abs (e_h e') <= K -> relr 1 e e'.
  Proof.
    intros (H1 & H2 & H3 & H4 & H5) Hk. repeat split; auto; eapply W_one; eauto.
  Qed.

  Lemma rels_one n la (ls : list (rec_t N)) : Forall2 (relr n) la ls ->
    Forall (fun e : rec_t N => Z.abs (e_h e) <= K) ls -> Forall2 (relr 1) la ls.
  Proof.
    induction 1 as [|e e' la ls He _ IH]; intros Hf; constructor.
    - inversion Hf; subst. eapply relr_one; eauto.
    - inversion Hf; subst. auto.
  Qed.

  Lemma rel_one n a s : rel n a s -> bounded s -> rel 1 a s.
  Proof.
    intros [] (B1 & B2 & B3). constructor; auto.
    - intros. eapply W_one; eauto.
    - intros. eapply W_one; eauto.
    - eapply rels_one; eauto.
  Qed.

  Lemma rel_inb n a s i j : rel n a s -> inb a i j = inb s i j.
  Proof. intros []. unfold inb. congruence. Qed.

  Lemma inb_grid (s : sim N) i j : inb s i j = true -> on_grid s i j.
  Proof.
    unfold inb, on_grid. rewrite !andb_true_iff, !Z.leb_le, !Z.ltb_lt. tauto.
  Qed.

  Lemma rel_body_absent n a s k i j : rel n a s -> 0 <= k < 3 -> on_grid s i j ->
    body_absent a k i j = body_absent s k i j.
  Proof.
    intros R Hk Hg. unfold body_absent.
    rewrite (W_eq 1 1 _ _ _ _ (WB_W _ _ (rel_b _ _ _ R k i j ltac:(lia) Hg)) (W_0 1 ltac:(lia))).
    rewrite (W_eq 1 1 _ _ _ _ (WB_W _ _ (rel_b _ _ _ R (k + 1) i j ltac:(lia) Hg)) (W_0 1 ltac:(lia))).
    reflexivity.
  Qed.

  Lemma rel_body_present n a s k i j : rel n a s -> 0 <= k < 3 -> on_grid s i j ->
    body_present a k i j = body_present s k i j.
  Proof.
    intros R Hk Hg. unfold body_present.
    rewrite (W_eq 1 1 _ _ _ _ (WB_W _ _ (rel_b _ _ _ R k i j ltac:(lia) Hg)) (W_0 1 ltac:(lia))).
    rewrite (W_eq 1 1 _ _ _ _ (WB_W _ _ (rel_b _ _ _ R (k + 1) i j ltac:(lia) Hg)) (W_0 1 ltac:(lia))).
    reflexivity.
  Qed.

  Lemma rel_soil_present n a s k i j : rel n a s -> 0 <= k < 3 -> on_grid s i j ->
    soil_present a k i j = soil_present s k i j.
  Proof.
    intros R Hk Hg. unfold soil_present.
    rewrite (W_eq n 1 _ _ _ _ (rel_bs _ _ _ R k i j ltac:(lia) Hg) (W_0 1 ltac:(lia))).
    rewrite (W_eq n 1 _ _ _ _ (rel_bs _ _ _ R (k + 1) i j ltac:(lia) Hg) (W_0 1 ltac:(lia))).
    reflexivity.
  Qed.

  Lemma rel_set_t n a s i j v x : rel n a s -> W n v x ->
    rel n (set_t a i j v) (set_t s i j x).
  Proof.
    intros [] Hv. constructor; cbn; auto.
    intros i' j' Hg. unfold upd2. destruct ((i' =? i) && (j' =? j)); auto.
  Qed.
  Lemma rel_set_bs n a s k i j v x : rel n a s -> W n v x ->
    rel n (set_bs a k i j v) (set_bs s k i j x).
  Proof.
    intros [] Hv. constructor; cbn; auto.
    intros k' i' j' Hk Hg. unfold upd3. destruct ((k' =? k) && (i' =? i) && (j' =? j)); auto.
  Qed.
  Lemma rel_set_b n a s k i j v x : rel n a s -> WB v x ->
    rel n (set_b a k i j v) (set_b s k i j x).
  Proof.
    intros [] Hv. constructor; cbn; auto.
    intros k' i' j' Hk Hg. unfold upd3. destruct ((k' =? k) && (i' =? i) && (j' =? j)); auto.
  Qed.
  Lemma rel_set_records n a s l l' : rel n a s -> Forall2 (relr n) l l' ->
    rel n (set_records a l) (set_records s l').
  Proof. intros [] Hv. constructor; cbn; auto. Qed.
  Lemma rel_push n a s e e' : rel n a s -> relr n e e' ->
    rel n (push_record a e) (push_record s e').
  Proof.
    intros R He. apply rel_set_records; auto. apply Forall2_app; auto.
    apply rel_records; auto.
  Qed.
  Lemma list_set_rel {X Y} (Q : X -> Y -> Prop) l l' n x x' :
    Forall2 Q l l' -> Q x x' -> Forall2 Q (list_set l n x) (list_set l' n x').
  Proof.
    intros Hl Hx. revert n. induction Hl; intros [|n]; cbn; constructor; auto.
  Qed.
  Lemma rel_set_record_h n m a s nn e e' v x : rel n a s -> relr m e e' -> W n v x ->
    rel n (set_record_h a nn e v) (set_record_h s nn e' x).
  Proof.
    intros R (H1 & H2 & H3 & H4 & _) Hv. apply rel_set_records; auto.
    apply list_set_rel; [apply rel_records; auto|]. repeat split; auto; apply Hv.
  Qed.
  Lemma rel_set_equilibrium n a s b : rel n a s -> rel n (set_equilibrium a b) (set_equilibrium s b).
  Proof. intros []. constructor; cbn; auto. Qed.
  Lemma rel_set_rng n a s r : rel n a s -> rel n (set_rng a r) (set_rng s r).
  Proof. intros []. constructor; cbn; auto. Qed.
  Lemma rel_set_body_area n a s r : rel n a s -> rel n (set_body_area a r) (set_body_area s r).
  Proof. intros []. constructor; cbn; auto. Qed.
  Lemma rel_set_relax_area n a s r : rel n a s -> rel n (set_relax_area a r) (set_relax_area s r).
  Proof. intros []. constructor; cbn; auto. Qed.
  Lemma rel_set_impact_area n a s r :
    rel n a s -> rel n (set_impact_area a r) (set_impact_area s r).
  Proof. intros []. constructor; cbn; auto. Qed.
  Lemma rel_warn n a s w : rel n a s -> rel n (warn a w) (warn s w).
  Proof. intros []. constructor; cbn; auto. congruence. Qed.

  Lemma rel_nth n a s nn : rel n a s ->
    match nth_error (records a) nn, nth_error (records s) nn with
    | Some e, Some e' => relr n e e'
    | None, None => True
    | _, _ => False
    end.
  Proof.
    intros R. generalize (rel_records _ _ _ R). generalize (records a), (records s).
    intros l l' Hl. revert nn. induction Hl; intros [|nn]; cbn; auto. apply IHHl.
  Qed.

  (** The random orders only depend on the positions. *)
  Lemma swap_rel {X Y} (Q : X -> Y -> Prop) l l' a b :
    Forall2 Q l l' -> Forall2 Q (swap l a b) (swap l' a b).
  Proof.
    intros Hl. unfold swap.
    assert (T : forall n, match nth_error l n, nth_error l' n with
      | Some x, Some y => Q x y | None, None => True | _, _ => False end).
    { clear a b. induction Hl; intros [|n]; cbn; auto. apply IHHl. }
    pose proof (T a) as Ta. pose proof (T b) as Tb.
    destruct (nth_error l a), (nth_error l' a); try tauto.
    destruct (nth_error l b), (nth_error l' b); try tauto.
    apply list_set_rel; auto. apply list_set_rel; auto.
  Qed.
  Lemma shuffle_rel {X Y} (Q : X -> Y -> Prop) l l' r :
    Forall2 Q l l' ->
    Forall2 Q (fst (shuffle l r)) (fst (shuffle l' r)) /\
    snd (shuffle l r) = snd (shuffle l' r).
  Proof.
    intros Hl. unfold shuffle. replace (length l) with (length l') by (clear - Hl; induction Hl; cbn; auto).
    generalize (length l' - 1)%nat. intros n. revert l l' Hl r.
    induction n as [|n IH]; intros l l' Hl r; cbn [shuffle_from]; auto.
    destruct (draw r (S n)) as [bb r']. apply IH. apply swap_rel; auto.
  Qed.

  (** The same grid: the levels of the body are aligned and at most [H]. *)
  Record relg (g : grid_t A) (g' : grid_t N) : Prop := mkRelg {
    rg_x : half_x g = half_x g';
    rg_y : half_y g = half_y g';
    rg_z : half_z g = half_z g';
    rg_cA : cell_z g = l_cA L;
    rg_cz : cell_z g' = cz;
    rg_top : forall k, 0 <= k <= 2 * half_z g' ->
      WB (d_to_f (vect_z g k)) (@d_to_f N (vect_z g' k));
    rg_bot : forall k, 0 <= k <= 2 * half_z g' ->
      WB (d_sub_f (vect_z g k) (cell_z g)) (@d_sub_f N (vect_z g' k) (cell_z g'));
    rg_far : l_Vd L (f_of_Z (2 * half_z g)) (@f_of_Z N (2 * half_z g'))
  }.

  (** The positions of the exact run are those of the heights in the arithmetic. *)
  Definition fr (frame : Z -> Z -> F A -> Pos A) : Z -> Z -> F N -> Pos N :=
    fun i j z => frame i j (l_phi L z).

  Lemma fr_eq frame i j a x : WB a x -> frame i j a = fr frame i j x.
  Proof. intros (_ & Hp & _). unfold fr. congruence. Qed.
End Lock.

(** [wsyn]: the exact height of a height, with its bound. *)
Ltac wside := first [assumption | lia | reflexivity].
Ltac wsyn :=
  lazymatch goal with
  | |- W _ _ (fadd _ _) _ => eapply W_add; [wsyn | wsyn | wside]
  | |- W _ _ (fsub _ _) _ => eapply W_sub; [wsyn | wsyn | wside]
  | |- W _ _ (fabs _) _ => eapply W_abs; wsyn
  | |- W _ _ f0 _ => apply (W_0 _ 0); wside
  | |- W _ _ (terrain _ _ _) _ => eapply rel_t; [eassumption | wside]
  | |- W _ _ (body _ _ _ _) _ => eapply WB_W; wbsyn
  | |- W _ _ (body_soil _ _ _ _) _ => eapply rel_bs; [eassumption | wside | wside]
  | |- W _ _ _ _ => first [eassumption | eapply WB_W; wbsyn]
  end
with wbsyn :=
  lazymatch goal with
  | |- WB _ (body _ _ _ _) _ => eapply rel_b; [eassumption | wside | wside]
  | |- WB _ (fmin _ _) _ => eapply WB_min; [wbsyn | wbsyn]
  | |- WB _ (fmax _ _) _ => eapply WB_max; [wbsyn | wbsyn]
  | |- WB _ _ _ => eassumption
  end.
(** Replace the tests of the arithmetic by exact ones. *)
Ltac wtest L :=
  match goal with
  | |- context [fltb (fadd ?a (l_tA L)) ?b] =>
      erewrite (W_lt_add L _ _ a b) by first [wsyn | wside]
  | |- context [fltb ?b (fsub ?a (l_tA L))] =>
      erewrite (W_gt_sub L _ _ a b) by first [wsyn | wside]
  | |- context [fltb ?b (fadd ?a (l_tA L))] =>
      erewrite (W_gt_add L _ a b) by first [wsyn | wbsyn | wside]
  | |- context [fltb (fsub ?a (l_tA L)) ?b] =>
      erewrite (W_lt_sub L _ a b) by first [wsyn | wbsyn | wside]
  | |- context [fltb ?a (l_tA L)] => erewrite (W_lt_tol L _ a) by wsyn
  | |- context [fltb (l_tA L) ?a] => erewrite (W_gt_tol L _ a) by wsyn
  | |- context [@fltb ?A ?a ?b] =>
      lazymatch A with ZNum _ => fail | _ => erewrite (W_lt L _ _ a b) by wsyn end
  | |- context [@feqb ?A ?a ?b] =>
      lazymatch A with ZNum _ => fail | _ => erewrite (W_eq L _ _ a b) by wsyn end
  end.
Ltac wtests L := repeat wtest L.
(** Goals [W n a x] with [n] given. *)
Ltac ww := eapply W_le; [wsyn | lia].
