(** CalcBodyPos, UpdateBody and IncludeNewBodyPos: the body columns. *)
From Coq Require Import ZArith List Bool Lia Permutation Sorted.
From Verif Require Import Outcome Num State Base Spec InvBase ModelRelax RelaxBase
  ModelBodyPos BodyColumn.
Import ListNotations.
Open Scope Z_scope.

(** ** Sorting the cells of a wall *)
Definition cell3_le (a b : cell3) : Prop := cell3_leb a b = true.

Lemma cell3_le_spec ai aj ak bi bj bk :
  cell3_le (ai, aj, ak) (bi, bj, bk) <->
  ai < bi \/ (ai = bi /\ (aj < bj \/ (aj = bj /\ ak <= bk))).
Proof.
  unfold cell3_le, cell3_leb.
  destruct (Z.eqb_spec ai bi); [destruct (Z.eqb_spec aj bj)|];
    rewrite ?Z.leb_le, ?Z.ltb_lt; lia.
Qed.

Lemma cell3_le_trans a b c : cell3_le a b -> cell3_le b c -> cell3_le a c.
Proof.
  destruct a as [[ai aj] ak], b as [[bi bj] bk], c as [[ci cj] ck]. rewrite !cell3_le_spec. lia.
Qed.

Lemma cell3_le_total a b : cell3_leb a b = false -> cell3_le b a.
Proof.
  destruct a as [[ai aj] ak], b as [[bi bj] bk].
  intros H. rewrite cell3_le_spec.
  assert (N : ~ cell3_le (ai, aj, ak) (bi, bj, bk)) by (unfold cell3_le; congruence).
  rewrite cell3_le_spec in N. lia.
Qed.

Lemma insert3_permutation x l : Permutation (x :: l) (insert3 x l).
Proof.
  induction l as [|y l IH]; cbn; [auto|].
  destruct (cell3_leb x y); [auto|].
  etransitivity; [apply perm_swap|]. constructor. exact IH.
Qed.

Lemma sort3_permutation l : Permutation l (sort3 l).
Proof.
  induction l as [|x l IH]; cbn; [auto|].
  etransitivity; [constructor; exact IH|apply insert3_permutation].
Qed.

Lemma insert3_sorted x l : StronglySorted cell3_le l -> StronglySorted cell3_le (insert3 x l).
Proof.
  induction l as [|y l IH]; intros H; cbn; [repeat constructor|].
  inversion H as [|? ? H1 H2]; subst.
  destruct (cell3_leb x y) eqn:E.
  - constructor; auto. constructor; [exact E|].
    eapply Forall_impl; [|exact H2]. intros z. apply cell3_le_trans. exact E.
  - constructor; auto.
    eapply Permutation_Forall; [apply insert3_permutation|].
    constructor; auto. apply cell3_le_total. exact E.
Qed.

Lemma sort3_sorted l : StronglySorted cell3_le (sort3 l).
Proof. induction l as [|x l IH]; cbn; [constructor|apply insert3_sorted; auto]. Qed.

(** ** The body columns *)
Section BodyPosProofs.
  Context {upm : units}.
  Local Notation sim := (sim (ZNum upm)).

  (** Nothing changed but the body. *)
  Definition only_body (s s' : sim) : Prop :=
    same_dims s s' /\ equilibrium s' = equilibrium s /\ teq s s' /\ bseq s s' /\
    records s' = records s /\ body_area s' = body_area s /\
    relax_area s' = relax_area s /\ impact_area s' = impact_area s /\
    rng s' = rng s /\ wlog s' = wlog s.

  Lemma only_body_refl s : only_body s s.
  Proof. repeat split. Qed.

  Lemma only_body_trans s1 s2 s3 : only_body s1 s2 -> only_body s2 s3 -> only_body s1 s3.
  Proof.
    intros ((? & ?) & ? & T1 & B1 & ?) ((? & ?) & ? & T2 & B2 & ?).
    split; [split; congruence|]. split; [congruence|].
    split; [intros i j; rewrite T2; apply T1|].
    split; [intros k i j; rewrite B2; apply B1|].
    intuition congruence.
  Qed.

  (** The interval is covered by one layer of the body. *)
  Definition covers (s : sim) (i j lo hi : Z) : Prop :=
    exists k, layer k /\ body_at s k i j /\
      (body s k i j : Z) <= lo /\ hi <= (body s (k + 1) i j : Z).

  (** The layers of the cell are well formed. *)
  Definition layered (tol : Z) (s : sim) (i j : Z) : Prop :=
    (forall k, layer k -> body_at s k i j ->
       (body s k i j : Z) < (body s (k + 1) i j : Z)) /\
    (body_at s 0 i j -> body_at s 2 i j ->
       (body s 1 i j : Z) + tol <= (body s 2 i j : Z) \/
       (body s 3 i j : Z) + tol <= (body s 0 i j : Z)).

  Lemma layered_ok tol s i j :
    layered tol s i j <->
    layers_ok tol (body s 0 i j) (body s 1 i j) (body s 2 i j) (body s 3 i j).
  Proof.
    unfold layered, layers_ok, body_at, present. split.
    - intros [H1 H2].
      pose proof (H1 0 (or_introl eq_refl)). pose proof (H1 2 (or_intror eq_refl)).
      auto.
    - intros (H1 & H2 & H3). split; auto. intros k [->| ->]; auto.
  Qed.

  Lemma covers_within s i j lo hi :
    covers s i j lo hi <->
    within lo hi (body s 0 i j) (body s 1 i j) (body s 2 i j) (body s 3 i j).
  Proof.
    unfold covers, within, body_at, present. split.
    - intros (k & [->| ->] & H); [left|right]; exact H.
    - intros [H|H]; [exists 0|exists 2]; (split; [unfold layer; auto|exact H]).
  Qed.

  (** Only the body of the given cell changed. *)
  Definition only_cell (s s' : sim) (i j : Z) : Prop :=
    only_body s s' /\ (forall k, ~ 0 <= k < 4 -> body s' k i j = body s k i j) /\
    forall k i' j', (i', j') <> (i, j) -> body s' k i' j' = body s k i' j'.

  Variable tol : Z.

  Lemma layer_status_ok s k i j (lo hi : Z) :
    layer_status (A := ZNum upm) tol s k i j lo hi =
    status tol (body s k i j) (body s (k + 1) i j) lo hi.
  Proof. reflexivity. Qed.

  Lemma include_merged s i j (lo hi : Z) :
    on_grid s i j ->
    returns (include_new_body_pos (A := ZNum upm) tol s i j lo hi)
      (fun s' => only_cell s s' i j /\
         (body s' 0 i j : Z, body s' 1 i j : Z, body s' 2 i j : Z, body s' 3 i j : Z) =
         merged tol (body s 0 i j) (body s 1 i j) (body s 2 i j) (body s 3 i j) lo hi).
  Proof.
    intros Hg. apply inb_true in Hg. unfold include_new_body_pos. rewrite Hg.
    cbn [guard]. rewrite !layer_status_ok. kred. unfold merged.
    assert (R : only_cell s s i j) by (split; [apply only_body_refl|auto]).
    destruct (status tol (body s 0 i j) (body s 1 i j) lo hi) as [st0|]; [|cbn; auto].
    destruct (status tol (body s 2 i j) (body s 3 i j) lo hi) as [st1|]; [|cbn; auto].
    cbn [returns].
    assert (W : forall s', only_body s s' ->
      (forall k i' j', (i', j') <> (i, j) \/ ~ 0 <= k < 4 ->
         body s' k i' j' = body s k i' j') ->
      only_cell s s' i j).
    { intros s' O B. split; [auto|]. split; auto. }
    assert (K : forall k i' j', (i', j') <> (i, j) \/ ~ 0 <= k < 4 ->
      forall n, 0 <= n < 4 -> (k =? n) && (i' =? i) && (j' =? j) = false).
    { intros k i' j' N n Hn. eqbs; subst; auto; exfalso; destruct N; try congruence; lia. }
    assert (E : forall n m, (n =? m) && (i =? i) && (j =? j) = (n =? m)).
    { intros n m. rewrite !Z.eqb_refl, !andb_true_r. reflexivity. }
    Local Ltac fin W K E := split; [apply W; [repeat split|upds; intros k i' j' N;
      rewrite !(K _ _ _ N) by lia; reflexivity]
      |upds; rewrite !E; cbn [Z.eqb Pos.eqb]; reflexivity].
    destruct ((st0 =? 1) && (st1 =? 1)); [fin W K E|].
    destruct (st0 =? 1); [fin W K E|].
    destruct (st1 =? 1); [fin W K E|].
    destruct (st0 =? 0); [fin W K E|].
    destruct (st1 =? 0); [fin W K E|].
    cbv zeta.
    match goal with |- context [if ?b then (if ?b1 then set_b _ _ _ _ _ else _)
                                else (if ?b2 then _ else _)] =>
      match goal with |- context [if ?c then (if ?c1 then (_, _) else _)
                                  else (if ?c2 then _ else _)] =>
        change b with c; change b1 with c1; change b2 with c2;
        destruct c; [destruct c1|destruct c2]
      end
    end; fin W K E.
  Qed.

  Hypothesis Htol : 0 < tol.

  (** ** IncludeNewBodyPos *)
  Lemma include_good s i j (lo hi : Z) :
    on_grid s i j -> layered tol s i j -> lo < hi ->
    returns (include_new_body_pos (A := ZNum upm) tol s i j lo hi)
      (fun s' => only_cell s s' i j /\ layered tol s' i j /\
         (forall lo' hi', covers s i j lo' hi' -> covers s' i j lo' hi') /\
         covers s' i j lo hi /\
         forall k, layer k -> body_at s' k i j ->
           ((body s' k i j : Z) = lo \/
            exists k', layer k' /\ body_at s k' i j /\ body s' k i j = body s k' i j) /\
           ((body s' (k + 1) i j : Z) = hi \/
            exists k', layer k' /\ body_at s k' i j /\
              body s' (k + 1) i j = body s (k' + 1) i j)).
  Proof.
    intros Hg Hl Hlt.
    eapply returns_weaken; [apply include_merged; auto|].
    cbn. intros s' [O E].
    apply layered_ok in Hl.
    pose proof (merged_spec tol _ _ _ _ lo hi Htol Hlt Hl) as M.
    rewrite <- E in M. destruct M as (M1 & M2 & M3 & M4 & M5 & M6).
    split; [auto|]. split; [apply layered_ok; auto|]. split; [|split].
    - intros lo' hi' (k & [->| ->] & Hb & H1 & H2); apply covers_within.
      + destruct (M2 Hb) as [(Q & ? & ?)|(Q & ? & ?)]; [left|right]; (split; [exact Q|]);
          kred; zn; lia.
      + destruct (M3 Hb) as [(Q & ? & ?)|(Q & ? & ?)]; [left|right]; (split; [exact Q|]);
          kred; zn; lia.
    - apply covers_within; auto.
    - intros k [->| ->] Hb.
      + specialize (M5 Hb). destruct M5 as [P1 P2]. unfold from in *. split.
        * destruct P1 as [P1|[[Q P1]|[Q P1]]]; [left; auto|right; exists 0|right; exists 2];
            (split; [unfold layer; auto|]); split; auto.
        * destruct P2 as [P2|[[Q P2]|[Q P2]]]; [left; auto|right; exists 0|right; exists 2];
            (split; [unfold layer; auto|]); split; auto.
      + specialize (M6 Hb). destruct M6 as [P1 P2]. unfold from in *. split.
        * destruct P1 as [P1|[[Q P1]|[Q P1]]]; [left; auto|right; exists 0|right; exists 2];
            (split; [unfold layer; auto|]); split; auto.
        * destruct P2 as [P2|[[Q P2]|[Q P2]]]; [left; auto|right; exists 0|right; exists 2];
            (split; [unfold layer; auto|]); split; auto.
  Qed.

  (** ** UpdateBody *)
  Variable g : grid_t (ZNum upm).
  Hypothesis Hcz : 0 < (cell_z g : Z).
  Hypothesis Hz : forall k, 0 <= k <= 2 * half_z g ->
    (vect_z g k : Z) = (cell_z g : Z) * (k + 1 - half_z g).

  (** [bots i j] and [tops i j] say what the bottoms and the tops of the layers of
      the cell may be. *)
  Variables bots tops : Z -> Z -> Z -> Prop.

  Definition body_ok (s : sim) : Prop :=
    forall i j, on_grid s i j -> layered tol s i j /\
      forall k, layer k -> body_at s k i j ->
        inside s i j /\ bots i j (body s k i j) /\ tops i j (body s (k + 1) i j).

  Definition cell_in (s : sim) (c : cell3) : Prop :=
    let '(i, j, k) := c in
    inside s i j /\ 0 <= k <= 2 * half_z g /\
    bots i j (z_bot g k) /\ tops i j (z_top g k).

  (** The body only grew. *)
  Definition grows (s s' : sim) : Prop :=
    only_body s s' /\
    forall i j lo hi, covers s i j lo hi -> covers s' i j lo hi.

  Lemma grows_refl s : grows s s.
  Proof. split; [apply only_body_refl|auto]. Qed.

  Lemma grows_trans s1 s2 s3 : grows s1 s2 -> grows s2 s3 -> grows s1 s3.
  Proof. intros [A1 A2] [B1 B2]. split; [eapply only_body_trans; eauto|auto]. Qed.

  Lemma cell_in_grows s s' c : grows s s' -> cell_in s c -> cell_in s' c.
  Proof.
    intros [[[E1 E2] _] _]. unfold cell_in, inside. destruct c as [[i j] k].
    rewrite E1, E2. auto.
  Qed.

  Lemma inside_on_grid (s : sim) i j : inside s i j -> on_grid s i j.
  Proof. unfold inside, on_grid. lia. Qed.

  Lemma body_at_other (s s' : sim) k i j :
    (forall k, body s' k i j = body s k i j) -> body_at s' k i j <-> body_at s k i j.
  Proof. intros E. unfold body_at. rewrite !E. tauto. Qed.

  Lemma include_body_ok s i j (lo hi : Z) :
    body_ok s -> inside s i j -> lo < hi -> bots i j lo -> tops i j hi ->
    returns (include_new_body_pos (A := ZNum upm) tol s i j lo hi)
      (fun s' => body_ok s' /\ grows s s' /\ covers s' i j lo hi /\
         only_cell s s' i j).
  Proof.
    intros Hb Hin Hlt Hlo Hhi.
    pose proof (inside_on_grid s i j Hin) as Hg.
    destruct (Hb i j Hg) as [L1 L2].
    eapply returns_weaken; [apply include_good; auto|].
    cbn. intros s' (O & L & C1 & C2 & P).
    pose proof O as (O1 & _ & O2).
    assert (Same : forall i' j', (i', j') = (i, j) \/ (i', j') <> (i, j)).
    { intros i' j'. destruct (Z.eq_dec i' i), (Z.eq_dec j' j); subst; auto;
        right; congruence. }
    assert (Dm : same_dims s s') by apply O1.
    split; [|split; [split; [auto|]|auto]].
    - intros i' j' Hg'.
      destruct (Same i' j') as [[= -> ->]|N].
      + split; [auto|]. intros k Hk Hbk. destruct (P k Hk Hbk) as [P1 P2].
        destruct Dm as [E1 E2].
        split; [unfold inside in *; rewrite E1, E2; auto|].
        split; [destruct P1 as [->|(k' & ? & ? & ->)]|destruct P2 as [->|(k' & ? & ? & ->)]];
          auto; apply L2; auto.
      + assert (E : forall k, body s' k i' j' = body s k i' j') by (intros; auto).
        assert (Hg0 : on_grid s i' j')
          by (destruct Dm as [E1 E2]; unfold on_grid in *; rewrite E1, E2 in Hg'; auto).
        destruct (Hb i' j' Hg0) as [B1 B2].
        split.
        * unfold layered in *. unfold body_at in *. rewrite !E.
          destruct B1 as [B11 B12]. split; [|auto].
          intros k. specialize (B11 k). rewrite !E. auto.
        * intros k Hk Hbk. rewrite (body_at_other s s' k i' j' E) in Hbk.
          destruct (B2 k Hk Hbk) as [I1 I2]. rewrite !E. split; [|auto].
          destruct Dm as [E1 E2]. unfold inside in *. rewrite E1, E2; auto.
    - intros i' j' lo' hi' (k & Hk & H1 & H2).
      destruct (Same i' j') as [[= -> ->]|N].
      + apply C1. exists k; auto.
      + exists k. unfold body_at in *. rewrite !O2 by auto. auto.
  Qed.

  Lemma z_bot_eq k : 0 <= k <= 2 * half_z g ->
    (z_bot g k : Z) = (cell_z g : Z) * (k - half_z g).
  Proof. intros H. unfold z_bot. zn. rewrite Hz by auto. lia. Qed.

  Lemma z_top_eq k : 0 <= k <= 2 * half_z g ->
    (z_top g k : Z) = (cell_z g : Z) * (k + 1 - half_z g).
  Proof. intros H. unfold z_top. zn. rewrite Hz by auto. lia. Qed.

  Lemma z_ok_true k : 0 <= k <= 2 * half_z g -> z_ok g k = true.
  Proof. intros H. unfold z_ok. apply andb_true_intro. rewrite Z.leb_le, Z.ltb_lt. lia. Qed.

  Lemma covers_smaller (s : sim) i j lo hi lo' hi' :
    covers s i j lo hi -> lo <= lo' -> hi' <= hi -> covers s i j lo' hi'.
  Proof. intros (k & ? & ? & ? & ?) ? ?. exists k. repeat split; auto; lia. Qed.

  (** No cell of [l] is in column [i, j]. *)
  Definition elsewhere (l : list cell3) (i j : Z) : Prop := forall k, ~ In (i, j, k) l.

  Lemma update_body_loop_good l : forall s i j kf kl,
    StronglySorted cell3_le ((i, j, kl) :: l) -> kf <= kl ->
    body_ok s -> cell_in s (i, j, kf) -> cell_in s (i, j, kl) ->
    (forall c, In c l -> cell_in s c) ->
    returns (update_body_loop (A := ZNum upm) g tol l s i j (z_bot g kf) (z_top g kl))
      (fun s' => body_ok s' /\ grows s s' /\
         (forall k, In (i, j, k) ((i, j, kl) :: l) -> covers s' i j (z_bot g kf) (z_top g k)) /\
         (forall i' j' k k', (i', j') <> (i, j) -> In (i', j', k) l -> In (i', j', k') l ->
            covers s' i' j' (z_bot g k) (z_top g k')) /\
         forall i' j', (i', j') <> (i, j) -> elsewhere l i' j' ->
           forall k, body s' k i' j' = body s k i' j').
  Proof.
    induction l as [|[[i1 j1] k1] l IH]; intros s i j kf kl Hs Hk Hb Cf Cl Hl;
      cbn [update_body_loop].
    - destruct Cf as (If & Kf & Bf & Tf), Cl as (Il & Kl & Bl & Tl).
      eapply returns_weaken; [apply include_body_ok; auto|].
      + rewrite z_bot_eq, z_top_eq by auto. nia.
      + cbv beta. intros s' (B & G & C & (_ & _ & O)). split; [auto|]. split; [auto|].
        split; [intros k [[= <-]|[]]; auto|]. split; [intros ? ? ? ? _ []|]. auto.
    - inversion Hs as [|? ? Hs1 Hf]; subst.
      pose proof (Hl (i1, j1, k1) (or_introl eq_refl)) as C1.
      assert (Hl1 : forall c, In c l -> cell_in s c) by (intros c Hc; apply Hl; right; auto).
      assert (K1 : 0 <= k1 <= 2 * half_z g) by apply C1.
      inversion Hf as [|? ? Hf1 Hf2]; subst.
      rewrite cell3_le_spec in Hf1.
      destruct (Z.eqb_spec i i1) as [->|Ni]; [destruct (Z.eqb_spec j j1) as [->|Nj]|];
        cbn [negb orb].
      + (* same column *)
        rewrite z_ok_true by auto. cbn [guard].
        eapply returns_weaken; [apply IH; auto; lia|].
        cbv beta. intros s' (B & G & C & Co & O). split; [auto|]. split; [auto|].
        split; [|split].
        * intros k [[= <-]|Hin]; [|apply C; auto].
          eapply covers_smaller; [apply (C k1); left; auto|lia|].
          rewrite !z_top_eq by (auto; apply Cl). nia.
        * intros i' j' k k' N [[= -> -> _]|Hin1]; [congruence|].
          intros [[= -> -> _]|Hin2]; [congruence|]. auto.
        * intros i' j' N E. apply O; auto. intros k Hin. apply (E k). right; auto.
      + (* same X, other Y *)
        destruct Cf as (If & Kf & Bf & Tf), Cl as (Il & Kl & Bl & Tl).
        assert (Ej : j < j1) by lia.
        assert (Ab : elsewhere ((i1, j1, k1) :: l) i1 j).
        { intros k [[= E]|Hin]; [lia|].
          rewrite Forall_forall in Hf2. inversion Hs1 as [|? ? _ Hf3]; subst.
          rewrite Forall_forall in Hf3. specialize (Hf3 _ Hin).
          rewrite cell3_le_spec in Hf3. lia. }
        eapply returns_bind; [apply include_body_ok; auto|].
        * rewrite z_bot_eq, z_top_eq by auto. nia.
        * cbv beta. intros s1 (B & G & C & (_ & _ & O)).
          rewrite z_ok_true by auto. cbn [guard].
          eapply returns_weaken; [apply IH; auto; try lia|].
          -- apply (cell_in_grows s); auto.
          -- apply (cell_in_grows s); auto.
          -- intros c Hc. apply (cell_in_grows s); auto.
          -- cbv beta. intros s' (B' & G' & C' & Co' & O'). split; [auto|].
             split; [eapply grows_trans; eauto|]. split; [|split].
             ++ intros k [[= <-]|Hin]; [apply G'; auto|]. exfalso; apply (Ab k); auto.
             ++ intros i' j' k k' N H1 H2.
                destruct (Z.eq_dec i' i1) as [->|Ni']; [destruct (Z.eq_dec j' j1) as [->|Nj']|].
                ** assert (L1 : k1 <= k).
                   { destruct H1 as [[= <-]|H1]; [lia|].
                     inversion Hs1 as [|? ? _ Hf3]; subst. rewrite Forall_forall in Hf3.
                     specialize (Hf3 _ H1). rewrite cell3_le_spec in Hf3. lia. }
                   assert (K2 : 0 <= k <= 2 * half_z g) by (apply (Hl (i1, j1, k)); auto).
                   eapply covers_smaller; [apply (C' k'); auto| |lia].
                   rewrite !z_bot_eq by auto. nia.
                ** apply Co'; [congruence| |].
                   --- destruct H1 as [[= E]|H1]; [congruence|auto].
                   --- destruct H2 as [[= E]|H2]; [congruence|auto].
                ** apply Co'; [congruence| |].
                   --- destruct H1 as [[= E]|H1]; [congruence|auto].
                   --- destruct H2 as [[= E]|H2]; [congruence|auto].
             ++ intros i' j' N E k. rewrite O'; [apply O; auto| |].
                ** intros [= -> ->]. apply (E k1). left; auto.
                ** intros k2 Hin. apply (E k2). right; auto.
      + (* other X *)
        destruct Cf as (If & Kf & Bf & Tf), Cl as (Il & Kl & Bl & Tl).
        assert (Ei : i < i1) by lia.
        assert (Ab : elsewhere ((i1, j1, k1) :: l) i j).
        { intros k [[= E]|Hin]; [lia|].
          inversion Hs1 as [|? ? _ Hf3]; subst.
          rewrite Forall_forall in Hf3. specialize (Hf3 _ Hin).
          rewrite cell3_le_spec in Hf3. lia. }
        eapply returns_bind; [apply include_body_ok; auto|].
        * rewrite z_bot_eq, z_top_eq by auto. nia.
        * cbv beta. intros s1 (B & G & C & (_ & _ & O)).
          rewrite z_ok_true by auto. cbn [guard].
          eapply returns_weaken; [apply IH; auto; try lia|].
          -- apply (cell_in_grows s); auto.
          -- apply (cell_in_grows s); auto.
          -- intros c Hc. apply (cell_in_grows s); auto.
          -- cbv beta. intros s' (B' & G' & C' & Co' & O'). split; [auto|].
             split; [eapply grows_trans; eauto|]. split; [|split].
             ++ intros k [[= <-]|Hin]; [apply G'; auto|]. exfalso; apply (Ab k); auto.
             ++ intros i' j' k k' N H1 H2.
                destruct (Z.eq_dec i' i1) as [->|Ni']; [destruct (Z.eq_dec j' j1) as [->|Nj']|].
                ** assert (L1 : k1 <= k).
                   { destruct H1 as [[= <-]|H1]; [lia|].
                     inversion Hs1 as [|? ? _ Hf3]; subst. rewrite Forall_forall in Hf3.
                     specialize (Hf3 _ H1). rewrite cell3_le_spec in Hf3. lia. }
                   assert (K2 : 0 <= k <= 2 * half_z g) by (apply (Hl (i1, j1, k)); auto).
                   eapply covers_smaller; [apply (C' k'); auto| |lia].
                   rewrite !z_bot_eq by auto. nia.
                ** apply Co'; [congruence| |].
                   --- destruct H1 as [[= E]|H1]; [congruence|auto].
                   --- destruct H2 as [[= E]|H2]; [congruence|auto].
                ** apply Co'; [congruence| |].
                   --- destruct H1 as [[= E]|H1]; [congruence|auto].
                   --- destruct H2 as [[= E]|H2]; [congruence|auto].
             ++ intros i' j' N E k. rewrite O'; [apply O; auto| |].
                ** intros [= -> ->]. apply (E k1). left; auto.
                ** intros k2 Hin. apply (E k2). right; auto.
  Qed.

  (** The walls of [w] are in the body. *)
  Definition wall_covered (w : list cell3) (s : sim) : Prop :=
    forall i j k k', In (i, j, k) w -> In (i, j, k') w ->
      covers s i j (z_bot g k) (z_top g k').

  Lemma update_body_good w s :
    StronglySorted cell3_le w -> w <> [] -> body_ok s -> (forall c, In c w -> cell_in s c) ->
    returns (update_body (A := ZNum upm) g tol w s)
      (fun s' => body_ok s' /\ grows s s' /\ wall_covered w s' /\
         forall i j, elsewhere w i j -> forall k, body s' k i j = body s k i j).
  Proof.
    intros Hs Hne Hb Hw. destruct w as [|[[i j] k] w]; [congruence|]. clear Hne.
    unfold update_body.
    pose proof (Hw _ (or_introl eq_refl)) as C0.
    rewrite z_ok_true by apply C0. cbn [guard].
    inversion Hs as [|? ? Hs1 Hf]; subst.
    eapply returns_weaken; [apply update_body_loop_good; auto|].
    - constructor; auto. constructor; auto. rewrite cell3_le_spec. lia.
    - lia.
    - cbv beta. intros s' (B & G & C & Co & O). split; [auto|]. split; [auto|]. split.
      + intros i' j' k1 k2 H1 H2.
        destruct (Z.eq_dec i' i) as [->|Ni']; [destruct (Z.eq_dec j' j) as [->|Nj']|].
        * assert (L1 : k <= k1).
          { destruct H1 as [[= <-]|H1]; [lia|]. rewrite Forall_forall in Hf.
            specialize (Hf _ H1). rewrite cell3_le_spec in Hf. lia. }
          eapply covers_smaller; [apply (C k2); right; auto| |lia].
          rewrite !z_bot_eq by (apply C0 || apply (Hw (i, j, k1)); auto). nia.
        * apply Co; auto. congruence.
        * apply Co; auto. congruence.
      + intros i' j' E k0. apply O; auto.
        intros [= -> ->]. apply (E k). left; auto.
  Qed.

  (** ** CalcBodyPos *)
  Lemma clear_body_good s :
    (forall i j, in_area (body_area s) i j -> on_grid s i j) ->
    returns (clear_body (A := ZNum upm) s)
      (fun s' => only_body s s' /\
         forall k i j, 0 <= k < 4 ->
           (in_area (body_area s) i j -> (body s' k i j : Z) = 0) /\
           (~ in_area (body_area s) i j -> body s' k i j = body s k i j)).
  Proof.
    intros Ha. unfold clear_body.
    set (I := fun rest (s' : sim) => only_body s s' /\
      forall k i j, 0 <= k < 4 ->
           (in_area (body_area s) i j -> ~ In (i, j) rest -> (body s' k i j : Z) = 0) /\
           (~ in_area (body_area s) i j -> body s' k i j = body s k i j)).
    eapply returns_weaken.
    - apply (for_each_returns_rest _ (fun rest s' =>
        (forall c, In c rest -> In c (area_cells (body_area s))) /\ I rest s')).
      + intros [i j] rest s' [Hin [O B]].
        assert (Hij : on_grid s i j).
        { apply Ha. apply in_area_cells. apply Hin. left; auto. }
        assert (Hb : inb s' i j = true).
        { apply inb_true. eapply on_grid_dims; [apply O|auto]. }
        rewrite Hb. cbn [guard returns].
        split; [intros c Hc; apply Hin; right; auto|]. split.
        * eapply only_body_trans; [exact O|]. repeat split.
        * intros k i' j' Hk. destruct (B k i' j' Hk) as [B1 B2]. upds. split.
          -- intros A1 N.
             destruct (Z.eqb_spec i' i) as [->|]; [destruct (Z.eqb_spec j' j) as [->|]|].
             ++ zn. eqbs; auto; lia.
             ++ rewrite !andb_false_r. apply B1; auto. intros [[= E]|?]; auto; congruence.
             ++ rewrite !andb_false_r. cbn [andb]. apply B1; auto.
                intros [[= E]|?]; auto; congruence.
          -- intros A1.
             assert (N : ~ (i' = i /\ j' = j)).
             { intros [-> ->]. apply A1, in_area_cells, Hin. left; auto. }
             rewrite <- B2 by auto. eqbs; auto; tauto.
      + split; [auto|]. split; [apply only_body_refl|]. intros k i j Hk. split; auto.
        intros A1 N. exfalso. apply N, in_area_cells; auto.
    - cbv beta. intros s' [_ [O B]]. split; [auto|]. intros k i j Hk.
      destruct (B k i j Hk) as [B1 B2]. split; auto.
  Qed.

  Lemma update_walls_good walls : forall s,
    body_ok s -> (forall w, In w walls -> w <> []) ->
    (forall w c, In w walls -> In c w -> cell_in s c) ->
    returns (for_each walls (fun w s => update_body (A := ZNum upm) g tol (sort3 w) s) s)
      (fun s' => body_ok s' /\ grows s s' /\
         (forall w, In w walls -> wall_covered w s') /\
         forall i j, (forall w, In w walls -> elsewhere w i j) ->
           forall k, body s' k i j = body s k i j).
  Proof.
    induction walls as [|w walls IH]; intros s Hb Hne Hc.
    - cbn. split; [auto|]. split; [apply grows_refl|]. split; [intros ? []|auto].
    - cbn [for_each].
      pose proof (sort3_permutation w) as P.
      eapply returns_bind; [apply (update_body_good (sort3 w)); auto|].
      + apply sort3_sorted.
      + intros E. rewrite E in P. apply Permutation_sym, Permutation_nil in P.
        apply (Hne w); [left; auto|auto].
      + intros c Hin. apply (Hc w); [left; auto|].
        eapply Permutation_in; [apply Permutation_sym, P|auto].
      + cbv beta. intros s1 (B1 & G1 & C1 & O1).
        eapply returns_weaken; [apply IH; auto|].
        * intros w' Hw. apply Hne. right; auto.
        * intros w' c Hw Hin. apply (cell_in_grows s); auto. apply (Hc w'); auto. right; auto.
        * cbv beta. intros s' (B & G & C & O). split; [auto|].
          split; [eapply grows_trans; eauto|]. split.
          -- intros w' [<-|Hw]; [|auto]. intros i j k k' H1 H2. apply G, C1.
             ++ eapply Permutation_in; eauto.
             ++ eapply Permutation_in; eauto.
          -- intros i j E k. rewrite O by (intros w' Hw; apply E; right; auto).
             apply O1. intros k' Hin. apply (E w (or_introl eq_refl) k').
             eapply Permutation_in; [apply Permutation_sym, P|auto].
  Qed.

  Lemma calc_body_pos_good a walls s :
    (forall i j, in_area (body_area s) i j -> on_grid s i j) ->
    (forall k i j, on_grid s i j -> layer k -> body_at s k i j ->
       in_area (body_area s) i j) ->
    (forall w, In w walls -> w <> []) ->
    (forall w c, In w walls -> In c w -> cell_in s c) ->
    returns (calc_body_pos (A := ZNum upm) g tol a walls s)
      (fun s' => body_ok s' /\ only_body (set_body_area s a) s' /\
         (forall w, In w walls -> wall_covered w s') /\
         forall k i j, on_grid s i j -> (forall w, In w walls -> elsewhere w i j) ->
           0 <= k < 4 -> (body s' k i j : Z) = 0).
  Proof.
    intros Ha Hcov Hne Hc. unfold calc_body_pos.
    eapply returns_bind; [apply clear_body_good; auto|].
    cbv beta. intros s1 [O1 B1].
    assert (Z1 : forall k i j, on_grid s i j -> 0 <= k < 4 -> (body s1 k i j : Z) = 0).
    { intros k i j Hg Hk. destruct (B1 k i j Hk) as [H1 H2].
      assert (D : in_area (body_area s) i j \/ ~ in_area (body_area s) i j)
        by (unfold in_area; lia).
      destruct D as [D|D]; [auto|]. rewrite H2 by auto.
      destruct (Z.eq_dec (body s k i j) 0) as [E|E]; [auto|]. exfalso. apply D.
      assert (Hk' : k = 0 \/ k = 1 \/ k = 2 \/ k = 3) by lia.
      destruct Hk' as [->|[->|[->| ->]]].
      - apply (Hcov 0); [auto|unfold layer; auto|left; auto].
      - apply (Hcov 0); [auto|unfold layer; auto|right; auto].
      - apply (Hcov 2); [auto|unfold layer; auto|left; auto].
      - apply (Hcov 2); [auto|unfold layer; auto|right; auto]. }
    assert (Dm : same_dims s s1) by apply O1. destruct Dm as [E1 E2].
    assert (No : forall k i j, on_grid s i j -> layer k -> ~ body_at s1 k i j).
    { intros k i j Hg Hk [H|H]; apply H; apply Z1; auto; unfold layer in Hk; lia. }
    eapply returns_weaken; [apply update_walls_good|].
    - intros i j Hg.
      assert (Hg0 : on_grid s i j) by (unfold on_grid in *; cbn in Hg; rewrite E1, E2 in Hg; auto).
      split; [split|].
      + intros k Hk Hb. exfalso. apply (No k i j); auto.
      + intros Hb. exfalso. apply (No 0 i j); auto. left; auto.
      + intros k Hk Hb. exfalso. apply (No k i j); auto.
    - auto.
    - intros w c Hw Hin. specialize (Hc w c Hw Hin). revert Hc.
      unfold cell_in, inside. destruct c as [[i j] k]. cbn. rewrite E1, E2. auto.
    - cbv beta. intros s' (B & G & C & O). split; [auto|]. split; [|split; [auto|]].
      + destruct G as [G _]. eapply only_body_trans; [|exact G].
        destruct O1 as (? & ? & ? & ? & ? & ? & ? & ? & ? & ?).
        repeat split; cbn; auto.
      + intros k i j Hg E Hk. rewrite O by auto. cbn. apply Z1; auto.
  Qed.
End BodyPosProofs.
