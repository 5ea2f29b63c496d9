(** UpdateBodySoil on one record, in any arithmetic. *)
From Coq Require Import ZArith List Bool Lia.
From Verif Require Import Outcome Num State ModelRelax ModelBodySoil.
Import ListNotations.
Open Scope Z_scope.
Open Scope num_scope.

Section Any.
  Context {A : Num}.
  Variable g : grid_t A.
  Variable tol : F A.
  Variable relocate : Pos A -> outcome (reloc A).
  Local Notation sim := (sim A).

  (** A wall of the nine cells around the target. *)
  Definition wall_around (s : sim) (r : reloc A) (k i j : Z) : Prop :=
    (k = 0 \/ k = 2) /\ Z.abs (i - r_i r) <= 1 /\ Z.abs (j - r_j r) <= 1 /\
    body_present s k i j = true.

  (** The soil [h], stored at [pos], is put on layer [k] of cell [(i, j)]. *)
  Definition put_on_layer (s s' : sim) (k i j : Z) (pos : Pos A) (h : F A) : Prop :=
    body_soil s' k i j = body s (k + 1) i j /\
    body_soil s' (k + 1) i j =
      body_soil s (k + 1) i j +. (body s (k + 1) i j -. body_soil s k i j +. h) /\
    (forall k' i' j', ~ (i' = i /\ j' = j /\ (k' = k \/ k' = k + 1)) ->
       body_soil s' k' i' j' = body_soil s k' i' j') /\
    (forall i' j', terrain s' i' j' = terrain s i' j') /\
    (forall k' i' j', body s' k' i' j' = body s k' i' j') /\
    records s' = records s ++ [mkRec k i j pos h] /\ wlog s' = wlog s.

  (** The soil [h] is put on the terrain. *)
  Definition put_on_terrain (s s' : sim) (i j : Z) (h : F A) : Prop :=
    terrain s' i j = terrain s i j +. h /\
    (forall i' j', ~ (i' = i /\ j' = j) -> terrain s' i' j' = terrain s i' j') /\
    (forall k' i' j', body_soil s' k' i' j' = body_soil s k' i' j') /\
    (forall k' i' j', body s' k' i' j' = body s k' i' j') /\
    records s' = records s /\ wlog s' = wlog s ++ [WToTerrain].

  Lemma drop_on_put (s : sim) k i j pos h : put_on_layer s (drop_on s k i j pos h) k i j pos h.
  Proof.
    unfold put_on_layer, drop_on. cbn. unfold upd3.
    rewrite !Z.eqb_refl. cbn [andb].
    replace (k + 1 =? k) with false by (symmetry; apply Z.eqb_neq; lia). cbn [andb].
    repeat (split; [reflexivity|]).
    split; [|repeat split; reflexivity].
    intros k' i' j' H.
    destruct (Z.eqb_spec k' k), (Z.eqb_spec i' i), (Z.eqb_spec j' j),
      (Z.eqb_spec k' (k + 1)); cbn [andb]; try reflexivity; exfalso; apply H; auto.
  Qed.

  Definition best_any (s : sim) (r : reloc A) (best : @best_t A) : Prop :=
    match fst best with
    | Some (i, j, ind) => wall_around s r (ind - 1) i j
    | None => True
    end.

  Lemma find_wall_any (s : sim) (r : reloc A) dirs : forall best res,
    (forall d, In d dirs -> Z.abs (fst d) <= 1 /\ Z.abs (snd d) <= 1) ->
    best_any s r best -> find_wall g tol s r dirs best = Ok res ->
    match fst res with
    | Some (i, j, k) => wall_around s r k i j
    | None => best_any s r (snd res)
    end.
  Proof.
    induction dirs as [|d dirs IH]; intros best res Hd Hb; cbn [find_wall].
    - intros [= <-]. exact Hb.
    - destruct (inb s _ _); cbn [guard]; [|discriminate].
      assert (Hw : forall k, k = 0 \/ k = 2 ->
        body_present s k (r_i r + fst d) (r_j r + snd d) = true ->
        wall_around s r k (r_i r + fst d) (r_j r + snd d)).
      { intros k Hk E. destruct (Hd d (or_introl eq_refl)). repeat split; try lia; auto. }
      assert (T : forall k best, k = 0 \/ k = 2 -> best_any s r best ->
        let '(hit, best') := try_layer g tol s k (r_i r + fst d) (r_j r + snd d) (r_z r) best in
        best_any s r best' /\
        (hit = true -> body_present s k (r_i r + fst d) (r_j r + snd d) = true)).
      { intros k b Hk Hbk. unfold try_layer. destruct (body_present s k _ _) eqn:E.
        - destruct (_ <. _); [auto|]. destruct (_ <. _); split; auto; try discriminate.
          unfold best_any. cbn [fst]. replace (k + 1 - 1) with k by lia. auto.
        - split; [auto|discriminate]. }
      pose proof (T 0 best (or_introl eq_refl) Hb) as T0.
      destruct (try_layer g tol s 0 _ _ _ best) as [[|] b0]; destruct T0 as [B0 E0].
      + intros [= <-]. cbn. auto.
      + pose proof (T 2 b0 (or_intror eq_refl) B0) as T2.
        destruct (try_layer g tol s 2 _ _ _ b0) as [[|] b2]; destruct T2 as [B2 E2].
        * intros [= <-]. cbn. auto.
        * apply IH; auto. intros d' H. apply Hd. right. exact H.
  Qed.

  Lemma update_record_any (s s' : sim) (e : rec_t A) :
    update_record g tol relocate e s = Ok s' ->
    if f_below (e_h e) (cell_z g) then s' = s
    else exists r, relocate (e_pos e) = Ok r /\
      let h := f_snap (e_h e) (cell_z g) in
      (exists k i j, wall_around s r k i j /\ put_on_layer s s' k i j (e_pos e) h) \/
      put_on_terrain s s' (r_i r) (r_j r) h.
  Proof.
    unfold update_record. destruct (f_below _ _); [intros [= <-]; reflexivity|].
    destruct (relocate (e_pos e)) as [r| |]; cbn [bind]; [|discriminate..].
    destruct (find_wall g tol s r _ _) as [[hit best]| |] eqn:E; cbn [bind]; [|discriminate..].
    apply find_wall_any in E; [| |exact I].
    2: { unfold exploration. destruct (r_sx r), (r_sy r), (r_xmain r); cbn;
           intros d H; repeat destruct H as [<-|H]; try destruct H; cbn; lia. }
    intros H. exists r. split; [reflexivity|]. cbv zeta.
    destruct hit as [[[i j] k]|]; cbn [fst snd] in E.
    { injection H as <-. left. exists k, i, j. split; [exact E|]. apply drop_on_put. }
    destruct (negb _) in H.
    - unfold best_any in E. destruct (fst best) as [[[i j] ind]|]; [|discriminate].
      injection H as <-. left. exists (ind - 1), i, j. split; [exact E|]. apply drop_on_put.
    - destruct (inb s _ _) in H; [|discriminate]. cbn [guard] in H. injection H as <-.
      right. unfold put_on_terrain. cbn. unfold upd2. rewrite !Z.eqb_refl. cbn [andb].
      split; [reflexivity|]. split; [|repeat split; reflexivity].
      intros i' j' N. destruct (Z.eqb_spec i' (r_i r)), (Z.eqb_spec j' (r_j r)); cbn [andb];
        try reflexivity. exfalso; auto.
  Qed.
End Any.

(** The order of the search. *)
Lemma exploration_order {A : Num} (r : reloc A) :
  let sx := if r_sx r then 1 else -1 in
  let sy := if r_sy r then 1 else -1 in
  let '(mx, my) := if r_xmain r then (sx, 0) else (0, sy) in
  let '(nx, ny) := if r_xmain r then (0, sy) else (sx, 0) in
  exploration r =
    [(0, 0); (mx, my); (mx + nx, my + ny); (nx, ny); (mx - nx, my - ny);
     (- nx, - ny); (nx - mx, ny - my); (- mx, - my); (- mx - nx, - my - ny)].
Proof. unfold exploration. destruct (r_sx r), (r_sy r), (r_xmain r); reflexivity. Qed.
