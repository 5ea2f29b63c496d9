(** UpdateBodySoil: the soil follows the body. *)
From Coq Require Import ZArith List Bool Lia Permutation.
From Verif Require Import Outcome Num State Base Spec InvBase ModelRelax RelaxBase
  ModelIntersect IntersectSoilProofs ModelBodySoil.
Import ListNotations.
Open Scope Z_scope.

Section BodySoilProofs.
  Context {upm : units}.
  Local Notation sim := (sim (ZNum upm)).
  Local Notation rec := (rec_t (ZNum upm)).
  Local Notation reloc := (reloc (ZNum upm)).

  (** ** Amount of soil in a list of records *)
  Fixpoint sum_h (l : list rec) : Z :=
    match l with [] => 0 | e :: l' => (e_h e : Z) + sum_h l' end.

  Lemma recorded_sum n m (l : list rec) :
    Forall (fun e => layer (e_ind e) /\ 0 <= e_i e < n /\ 0 <= e_j e < m) l ->
    sum2 n m (fun i j => recorded l 0 i j + recorded l 2 i j) = sum_h l.
  Proof.
    induction 1 as [|e l (Hk & Hi & Hj) _ IH]; cbn [recorded sum_h].
    - unfold sum2. rewrite (sum_to_ext _ _ (fun _ => 0)) by (intros; apply sum_to_zero).
      apply sum_to_zero.
    - pose proof (sum2_single n m (e_i e) (e_j e) (e_h e) Hi Hj) as Hs.
      transitivity (sum2 n m (fun i' j' => if (i' =? e_i e) && (j' =? e_j e) then (e_h e : Z) else 0)
        + sum2 n m (fun i j => recorded l 0 i j + recorded l 2 i j)); [|rewrite IH; zn; lia].
      clear Hs. rewrite <- sum2_add. apply sum2_ext. intros i j _ _. unfold matches.
      rewrite (Z.eqb_sym i), (Z.eqb_sym j).
      destruct (Z.eqb_spec (e_i e) i); destruct (Z.eqb_spec (e_j e) j);
        rewrite ?andb_false_r, ?andb_true_r; cbn [andb]; try lia.
      destruct Hk as [->| ->]; cbn [Z.eqb Pos.eqb]; zn; lia.
  Qed.

  (** ** The order in which the walls are explored *)

  (** The walls of the cells around the target, in the order of the search. *)
  Definition walls_at (s : sim) (i j : Z) : list (Z * Z * Z) :=
    (if body_present s 0 i j then [(i, j, 0)] else []) ++
    (if body_present s 2 i j then [(i, j, 2)] else []).
  Definition walls_of (s : sim) (i j : Z) (dirs : list (Z * Z)) : list (Z * Z * Z) :=
    flat_map (fun d => walls_at s (i + fst d) (j + snd d)) dirs.

  (** Vertical distance between the wall and the height [z]. *)
  Definition wall_dist (s : sim) (z : Hgt (ZNum upm)) (w : Z * Z * Z) : Z :=
    let '(i, j, k) := w in f_dist (n := ZNum upm) z (body s (k + 1) i j).

  Variable g : grid_t (ZNum upm).
  Variable tol : Z.
  Local Notation cz := (cell_z g : Z).

  Definition wall_near (s : sim) (z : Hgt (ZNum upm)) (w : Z * Z * Z) : Prop :=
    wall_dist s z w < cz + tol.

  Definition best_at (s : sim) (z : Hgt (ZNum upm)) (far : Z) (ws : list (Z * Z * Z))
    (best : option (Z * Z * Z) * Z) : Prop :=
    (forall w, In w ws -> ~ wall_near s z w /\ snd best <= wall_dist s z w) /\
    match fst best with
    | Some (i, j, ind) =>
        In (i, j, ind - 1) ws /\ snd best = wall_dist s z (i, j, ind - 1) /\ snd best < far
    | None => snd best = far
    end.

  Lemma try_layer_spec s k i j z far ws best :
    best_at s z far ws best ->
    let ws' := ws ++ (if body_present s k i j then [(i, j, k)] else []) in
    match try_layer (A := ZNum upm) g tol s k i j z best with
    | (true, _) => body_present s k i j = true /\ wall_near s z (i, j, k)
    | (false, best') => best_at s z far ws' best'
    end.
  Proof.
    intros [H1 H2]. unfold try_layer. destruct (body_present s k i j) eqn:E; cbv zeta.
    2: { rewrite app_nil_r. split; auto. }
    destruct best as [b d]. cbn [fst snd] in *. zn.
    destruct (Z.ltb_spec (f_dist (n := ZNum upm) z (body s (k + 1) i j)) (cz + tol)) as [N|N]; [auto|].
    destruct (Z.ltb_spec (f_dist (n := ZNum upm) z (body s (k + 1) i j)) d) as [M|M].
    - split; cbn [fst snd].
      + intros w Hw. apply in_app_iff in Hw. destruct Hw as [Hw|[<-|[]]].
        * specialize (H1 w Hw). cbn in H1. split; [apply H1|]. lia.
        * unfold wall_near, wall_dist. lia.
      + replace (k + 1 - 1) with k by lia. split; [|split; [reflexivity|]].
        * apply in_app_iff. right. left. reflexivity.
        * destruct b as [[[i' j'] ind]|]; lia.
    - split; cbn [fst snd].
      + intros w Hw. apply in_app_iff in Hw. destruct Hw as [Hw|[<-|[]]].
        * apply H1; auto.
        * unfold wall_near, wall_dist. lia.
      + destruct b as [[[i' j'] ind]|]; [|auto]. destruct H2 as (H2 & H3 & H4).
        split; [|auto]. apply in_app_iff. auto.
  Qed.

  (** What the search finds. *)
  Definition found (s : sim) (z : Hgt (ZNum upm)) (far : Z) (ws : list (Z * Z * Z))
    (res : option (Z * Z * Z) * (option (Z * Z * Z) * Z)) : Prop :=
    match fst res with
    | Some w => exists pre post, ws = pre ++ w :: post /\ wall_near s z w /\
        forall w', In w' pre -> ~ wall_near s z w'
    | None => best_at s z far ws (snd res)
    end.

  Lemma find_wall_spec (s : sim) (r : reloc) far dirs : forall ws best,
    best_at s (r_z r) far ws best ->
    (forall d, In d dirs -> on_grid s (r_i r + fst d) (r_j r + snd d)) ->
    returns (find_wall (A := ZNum upm) g tol s r dirs best)
      (found s (r_z r) far (ws ++ walls_of s (r_i r) (r_j r) dirs)).
  Proof.
    induction dirs as [|d dirs IH]; intros ws best Hb Hd; cbn [find_wall].
    - cbn. rewrite app_nil_r. exact Hb.
    - pose proof (Hd d (or_introl eq_refl)) as Hg. apply inb_true in Hg. rewrite Hg.
      cbn [guard].
      set (i := r_i r + fst d). set (j := r_j r + snd d).
      assert (Ew : ws ++ walls_of s (r_i r) (r_j r) (d :: dirs) =
        ((ws ++ (if body_present s 0 i j then [(i, j, 0)] else [])) ++
         (if body_present s 2 i j then [(i, j, 2)] else [])) ++
        walls_of s (r_i r) (r_j r) dirs).
      { cbn [walls_of flat_map]. unfold walls_at. fold i j. rewrite !app_assoc. reflexivity. }
      rewrite Ew.
      pose proof (try_layer_spec s 0 i j (r_z r) far ws best Hb) as T0. cbv zeta in T0.
      destruct (try_layer (A := ZNum upm) g tol s 0 i j (r_z r) best) as [[|] b0].
      + destruct T0 as [T1 T2]. rewrite T1. cbn [returns]. unfold found. cbn [fst].
        exists ws, ((if body_present s 2 i j then [(i, j, 2)] else []) ++
                    walls_of s (r_i r) (r_j r) dirs).
        rewrite <- !app_assoc. split; [reflexivity|]. split; [auto|].
        intros w' Hw. apply Hb; auto.
      + pose proof (try_layer_spec s 2 i j (r_z r) far _ b0 T0) as T2. cbv zeta in T2.
        destruct (try_layer (A := ZNum upm) g tol s 2 i j (r_z r) b0) as [[|] b2].
        * destruct T2 as [T2 T3]. rewrite T2. cbn [returns]. unfold found. cbn [fst].
          eexists _, _. rewrite <- (app_assoc _ [_]). cbn [app].
          split; [reflexivity|]. split; [auto|].
          intros w' Hw. apply T0; auto.
        * apply IH; auto. intros d' Hd'. apply Hd. right; auto.
  Qed.

  Lemma in_walls_at s i j i' j' k :
    In (i', j', k) (walls_at s i j) -> i' = i /\ j' = j /\ layer k /\ body_at s k i j.
  Proof.
    unfold walls_at. rewrite in_app_iff.
    destruct (body_present s 0 i j) eqn:E0; destruct (body_present s 2 i j) eqn:E2;
      intros [H|H]; cbn in H; (tauto || (destruct H as [[= <- <- <-]|[]];
        (split; [auto|]; split; [auto|]; split; [unfold layer; auto|]);
        apply body_present_spec; auto)).
  Qed.

  Lemma in_walls_of s i j dirs i' j' k :
    In (i', j', k) (walls_of s i j dirs) ->
    layer k /\ body_at s k i' j' /\ exists d, In d dirs /\ i' = i + fst d /\ j' = j + snd d.
  Proof.
    unfold walls_of. rewrite in_flat_map. intros (d & Hd & H).
    apply in_walls_at in H as (-> & -> & H1 & H2).
    split; [auto|]. split; [auto|]. exists d. auto.
  Qed.

  Lemma exploration_around (r : reloc) d :
    In d (exploration r) -> -1 <= fst d <= 1 /\ -1 <= snd d <= 1.
  Proof.
    unfold exploration. destruct (r_sx r), (r_sy r), (r_xmain r); cbn;
      intros H; repeat destruct H as [<-|H]; try destruct H; cbn; lia.
  Qed.

  Lemma exploration_all (r : reloc) a b :
    -1 <= a <= 1 -> -1 <= b <= 1 -> In (a, b) (exploration r).
  Proof.
    intros Ha Hb. assert (a = -1 \/ a = 0 \/ a = 1) as A by lia.
    assert (b = -1 \/ b = 0 \/ b = 1) as B by lia.
    unfold exploration.
    destruct (r_sx r), (r_sy r), (r_xmain r), A as [->|[->| ->]], B as [->|[->| ->]];
      cbn; tauto.
  Qed.

  (** ** One record *)
  Variable near : Pos (ZNum upm) -> Prop.
  Variable relocate : Pos (ZNum upm) -> outcome reloc.
  Hypothesis Htol : 0 < tol.
  Hypothesis Hcz : 2 * tol < cz.

  (** The target cell of the record has its eight neighbours in the grid. *)
  Definition target_ok (s : sim) (e : rec) : Prop :=
    returns (relocate (e_pos e)) (fun r => inside s (r_i r) (r_j r)).

  Definition far : Z := 2 * half_z g * ticks upm.

  (** The soil [e] is dropped on wall [w]. *)
  Definition dropped (s : sim) (e : rec) (w : Z * Z * Z) (s' : sim) : Prop :=
    let '(i, j, k) := w in
    body_at s k i j /\
    soil_set s s' k i j (body s (k + 1) i j) (column_top s k i j + (e_h e : Z)) /\
    records s' = records s ++ [@mkRec (ZNum upm) k i j (e_pos e) (e_h e)] /\
    wlog s' = wlog s.

  (** It falls on the terrain. *)
  Definition grounded (s : sim) (e : rec) (i j : Z) (s' : sim) : Prop :=
    terrain_set s s' i j ((terrain s i j : Z) + (e_h e : Z)) /\
    records s' = records s /\ wlog s' = wlog s ++ [WToTerrain].

  (** What is decided for a record: C27. *)
  Definition rehomed (s : sim) (e : rec) (s' : sim) : Prop :=
    exists r, relocate (e_pos e) = Ok r /\
    let ws := walls_of s (r_i r) (r_j r) (exploration r) in
    let z := r_z r in
    (exists pre w post, ws = pre ++ w :: post /\ wall_near s z w /\
       (forall w', In w' pre -> ~ wall_near s z w') /\ dropped s e w s') \/
    ((forall w, In w ws -> ~ wall_near s z w) /\
     ((exists w, In w ws /\ wall_dist s z w < far /\
         (forall w', In w' ws -> wall_dist s z w <= wall_dist s z w') /\
         dropped s e w s') \/
      ((forall w, In w ws -> far <= wall_dist s z w) /\
       grounded s e (r_i r) (r_j r) s'))).

  Lemma round_aligned h : aligned cz h -> cz * round_half_away h cz = h.
  Proof.
    intros [q ->].
    enough (E : round_half_away (q * cz) cz = q) by (rewrite E; zn; lia).
    unfold round_half_away. zn.
    destruct (Z.leb_spec 0 (q * cz)).
    - replace (2 * (q * cz) + cz) with (cz + q * (2 * cz)) by lia.
      rewrite Z.div_add, Z.div_small by lia. lia.
    - replace (2 * - (q * cz) + cz) with (cz + (- q) * (2 * cz)) by lia.
      rewrite Z.div_add, Z.div_small by lia. lia.
  Qed.

  Lemma column_top_drop (s : sim) l k i j (h : Z) :
    consistent near cz s l -> on_grid s i j -> layer k -> body_at s k i j ->
    (body_soil s (k + 1) i j : Z) + (body s (k + 1) i j - body_soil s k i j + h) =
    column_top s k i j + h.
  Proof.
    intros H1 H2 H3 H4. rewrite (column_top_height near cz s l) by auto.
    unfold soil_height. zn. lia.
  Qed.

  Lemma drop_on_dropped (s : sim) (e : rec) k i j :
    consistent near cz s (records s) -> on_grid s i j -> layer k -> body_at s k i j ->
    dropped s e (i, j, k) (drop_on (A := ZNum upm) s k i j (e_pos e) (e_h e)) /\
    body_area (drop_on (A := ZNum upm) s k i j (e_pos e) (e_h e)) = body_area s /\
    relax_area (drop_on (A := ZNum upm) s k i j (e_pos e) (e_h e)) = relax_area s /\
    impact_area (drop_on (A := ZNum upm) s k i j (e_pos e) (e_h e)) = impact_area s /\
    rng (drop_on (A := ZNum upm) s k i j (e_pos e) (e_h e)) = rng s.
  Proof.
    intros H1 H2 H3 H4. unfold drop_on, dropped. split; [|repeat split].
    split; [auto|]. split; [|split; reflexivity].
    rewrite <- (column_top_drop s (records s) k i j (e_h e)) by auto.
    split; [split; auto|]. split; [intros ? ?; reflexivity|].
    split; [intros ? ? ?; reflexivity|].
    upds. rewrite !Z.eqb_refl. cbn [andb].
    split; [|split].
    - destruct (Z.eqb_spec k (k + 1)); [lia|]. reflexivity.
    - destruct (Z.eqb_spec (k + 1) k); [lia|]. reflexivity.
    - intros k' i' j' N. eqbs; auto; tauto.
  Qed.

  Definition settled (s : sim) (e : rec) (s' : sim) : Prop :=
    (((e_h e : Z) = 0 /\ s' = s) \/ ((e_h e : Z) <> 0 /\ rehomed s e s')) /\
    consistent near cz s' (records s') /\ same_dims s s' /\ beq s s' /\
    body_area s' = body_area s /\ relax_area s' = relax_area s /\
    impact_area s' = impact_area s /\ rng s' = rng s /\
    total_soil s' = total_soil s + (e_h e : Z) /\
    (length (records s') <= length (records s) + 1)%nat /\
    exists n, wlog s' = wlog s ++ repeat WToTerrain n.

  Lemma update_record_good (s : sim) (e : rec) :
    consistent near cz s (records s) -> rec_ok near cz s e -> target_ok s e ->
    returns (update_record (A := ZNum upm) g tol relocate e s) (settled s e).
  Proof.
    intros HC (Hk & Hin & Hpos & Ah & Hn) Hr. unfold update_record. zn.
    destruct (Z.ltb_spec (10 * e_h e) (9 * cz)) as [Hlt|Hge].
    - assert (E0 : (e_h e : Z) = 0).
      { destruct Ah as [q Eq]. rewrite Eq in Hlt, Hpos |- *.
        assert (q = 0) by nia. subst q. lia. }
      cbn [returns]. unfold settled. split; [left; auto|]. split; [auto|].
      split; [split; auto|]. split; [intros ? ? ?; reflexivity|].
      do 4 (split; [auto|]). split; [lia|]. split; [lia|].
      exists 0%nat. cbn. rewrite app_nil_r. reflexivity.
    - assert (E0 : (e_h e : Z) <> 0) by lia.
      rewrite (round_aligned _ Ah).
      unfold target_ok in Hr.
      destruct (relocate (e_pos e)) as [r|u|] eqn:Er; try contradiction.
      cbn [returns] in Hr. cbn [bind].
      eapply returns_bind.
      { apply (find_wall_spec s r far (exploration r) [] (None, far)).
        - split; [intros w []|reflexivity].
        - intros d Hd. apply exploration_around in Hd.
          unfold inside, on_grid in *. lia. }
      cbv beta. cbn [app]. intros [hit best] F. unfold found in F. cbn [fst snd] in F.
      assert (Dropped : forall i j k s',
        In (i, j, k) (walls_of s (r_i r) (r_j r) (exploration r)) ->
        s' = drop_on (A := ZNum upm) s k i j (e_pos e) (e_h e) ->
        (dropped s e (i, j, k) s' -> rehomed s e s') -> settled s e s').
      { intros i j k s' Hw -> Hre.
        apply in_walls_of in Hw as (Lk & Hb & d & Hd & Ei & Ej).
        apply exploration_around in Hd.
        assert (Hg : on_grid s i j) by (unfold inside, on_grid in *; lia).
        destruct (drop_on_dropped s e k i j HC Hg Lk Hb) as (D & A1 & A2 & A3 & A4).
        set (s' := drop_on _ _ _ _ _ _) in *. specialize (Hre D).
        destruct D as (_ & Hset & Er' & Ew).
        assert (Hin' : inside s i j).
        { destruct HC as (_ & _ & HC & _). destruct (HC i j Hg) as (_ & [HB _] & _).
          apply (HB k); auto. }
        destruct (consistent_put near cz s s' (records s)
          (@mkRec (ZNum upm) k i j (e_pos e) (e_h e))) as (P1 & P2 & _); auto.
        { split; [|split; [|split; [|split]]]; auto. }
        split; [right; auto|]. rewrite Er'. split; [auto|].
        pose proof Hset as (Dm & _ & Bq & B1 & B2 & B3).
        do 2 (split; [auto|]). do 4 (split; [auto|]).
        split; [exact P2|]. split; [rewrite app_length; cbn; lia|].
        exists 0%nat. cbn. rewrite app_nil_r. auto. }
      destruct hit as [[[i j] k]|].
      + destruct F as (pre & post & Ews & N1 & N2).
        cbn [returns]. apply (Dropped i j k); [rewrite Ews; apply in_elt|reflexivity|].
        intros D. exists r. split; [auto|]. cbv zeta. left.
        exists pre, (i, j, k), post. auto.
      + destruct F as [F1 F2]. change (2 * half_z g * ticks upm) with far.
        destruct best as [[[[i j] ind]|] d]; cbn [fst snd] in *.
        * destruct F2 as (F2 & F3 & F4).
          destruct (Z.eqb_spec d far) as [->|Nd]; [lia|]. cbn [negb returns].
          apply (Dropped i j (ind - 1)); [auto|reflexivity|].
          intros D. exists r. split; [auto|]. cbv zeta. right.
          split; [intros w Hw; apply F1; auto|]. left. exists (i, j, ind - 1).
          split; [auto|]. rewrite <- F3. split; [auto|]. split; [|auto].
          intros w' Hw. apply F1; auto.
        * subst d. rewrite Z.eqb_refl. cbn [negb].
          assert (Hg : on_grid s (r_i r) (r_j r)) by (unfold inside, on_grid in *; lia).
          rewrite (proj2 (inb_true s (r_i r) (r_j r)) Hg). cbn [guard returns].
          set (i := r_i r) in *. set (j := r_j r) in *.
          match goal with |- settled _ _ ?x => set (s' := x) end.
          assert (Hset : terrain_set s s' i j ((terrain s i j : Z) + (e_h e : Z))).
          { split; [split; auto|]. split; [intros ? ? ?; reflexivity|].
            split; [intros ? ? ?; reflexivity|]. subst s'. upds. rewrite !Z.eqb_refl.
            split; [reflexivity|]. intros i' j' N. eqbs; auto; tauto. }
          assert (Av : aligned cz ((terrain s i j : Z) + (e_h e : Z))).
          { apply aligned_add; auto. destruct HC as (_ & _ & HC & _).
            destruct (HC i j Hg) as ((HA & _) & _). exact HA. }
          destruct (consistent_terrain near cz s s' (records s) i j _ HC Hg Av Hset)
            as (P1 & P2 & _).
          split; [right; split; [auto|]|].
          { exists r. split; [auto|]. cbv zeta. right.
            split; [intros w Hw; apply F1; auto|]. right.
            split; [intros w Hw; apply F1; auto|].
            split; [exact Hset|]. split; reflexivity. }
          split; [exact P1|]. do 2 (split; [apply Hset|]). do 4 (split; [reflexivity|]).
          split; [rewrite P2; zn; lia|]. split; [cbn; lia|].
          exists 1%nat. reflexivity.
  Qed.

  (** ** All the records *)

  (** The state before the call: the soil is where it was, but the body moved. *)
  Definition detached (s : sim) : Prop :=
    3 <= nx s /\ 3 <= ny s /\
    (forall i j, on_grid s i j ->
       cell_aligned cz s i j /\ cell_body s i j /\
       forall k, layer k ->
         (soil_on s k i j -> listed (records s) k i j) /\
         soil_height s k i j = recorded (records s) k i j) /\
    Forall (rec_ok near cz s) (records s).

  Definition resettled (s s' : sim) : Prop :=
    consistent near cz s' (records s') /\ same_dims s s' /\ beq s s' /\
    body_area s' = body_area s /\ relax_area s' = relax_area s /\
    impact_area s' = impact_area s /\ rng s' = rng s /\
    total_soil s' = total_soil s /\
    (length (records s') <= length (records s))%nat /\
    exists n, wlog s' = wlog s ++ repeat WToTerrain n.

  Lemma reset_records_good s :
    detached s ->
    returns (for_each (records s) (reset_record (A := ZNum upm)) s)
      (fun s' => same_dims s s' /\ teq s s' /\ beq s s' /\
         body_area s' = body_area s /\ relax_area s' = relax_area s /\
         impact_area s' = impact_area s /\ rng s' = rng s /\ wlog s' = wlog s /\
         forall k i j, on_grid s i j -> 0 <= k < 4 -> (body_soil s' k i j : Z) = 0).
  Proof.
    intros (N1 & N2 & H1 & H2).
    set (clean := fun (s' : sim) (e : rec) =>
      (body_soil s' (e_ind e) (e_i e) (e_j e) : Z) = 0 /\
      (body_soil s' (e_ind e + 1) (e_i e) (e_j e) : Z) = 0).
    eapply returns_weaken.
    - apply (for_each_returns_rest _ (fun rest s' =>
        Forall (rec_ok near cz s) rest /\
        same_dims s s' /\ teq s s' /\ beq s s' /\
        body_area s' = body_area s /\ relax_area s' = relax_area s /\
        impact_area s' = impact_area s /\ rng s' = rng s /\ wlog s' = wlog s /\
        (forall k i j, (body_soil s' k i j : Z) = 0 \/ body_soil s' k i j = body_soil s k i j) /\
        forall e, In e (records s) -> In e rest \/ clean s' e)).
      + intros e rest s' (Hf & Dm & Tq & Bq & A1 & A2 & A3 & A4 & A5 & Hz & Hc).
        inversion Hf as [|? ? He Hf']; subst. destruct He as (Lk & Hi & _).
        unfold reset_record.
        assert (Hl : layer_ok (e_ind e) = true).
        { unfold layer_ok. destruct Lk as [->| ->]; reflexivity. }
        assert (Hg : inb s' (e_i e) (e_j e) = true).
        { apply inb_true. eapply on_grid_dims; [exact Dm|].
          unfold inside, on_grid in *. lia. }
        rewrite Hl, Hg. cbn [andb guard returns].
        split; [auto|]. split; [auto|]. split; [auto|]. split; [auto|].
        do 5 (split; [auto|]). split.
        * intros k i j. upds. eqbs; auto.
        * intros e' He'. destruct (Hc e' He') as [[<-|Hr]|[C1 C2]].
          -- right. split; upds; rewrite !Z.eqb_refl; cbn [andb]; [|reflexivity].
             eqbs; reflexivity.
          -- left; auto.
          -- right. split; upds; eqbs; auto.
      + split; [auto|]. repeat split; auto.
    - cbv beta. intros s' (_ & Dm & Tq & Bq & A1 & A2 & A3 & A4 & A5 & Hz & Hc).
      do 4 (split; [auto|]). do 4 (split; [auto|]).
      intros k i j Hg Hk.
      assert (L : exists k0, layer k0 /\ (k = k0 \/ k = k0 + 1)).
      { destruct (Z.ltb_spec k 2); [exists 0|exists 2]; unfold layer; lia. }
      destruct L as (k0 & Lk0 & Ek).
      destruct (H1 i j Hg) as (_ & _ & B). destruct (B k0 Lk0) as [B1 _].
      destruct (Z.eq_dec (body_soil s' k i j) 0) as [E|E]; [auto|]. exfalso.
      assert (So : soil_on s k0 i j).
      { destruct (Hz k i j) as [Hz'|Hz']; [contradiction|].
        unfold soil_on. zn. rewrite Hz' in E. destruct Ek; subst k; auto. }
      destruct (B1 So) as (e & He & M). apply matches_spec in M as (<- & <- & <-).
      destruct (Hc e He) as [[]|[C1 C2]]. destruct Ek; subst k; contradiction.
  Qed.

  (** The soil taken off the body is that of the records. *)
  Lemma reset_records_cleared s s0 :
    detached s -> same_dims s s0 -> teq s s0 -> beq s s0 ->
    (forall k i j, on_grid s i j -> 0 <= k < 4 -> (body_soil s0 k i j : Z) = 0) ->
    total_soil s0 + sum_h (records s) = total_soil s /\
    consistent near cz (set_records s0 []) [].
  Proof.
    intros HD Dm Tq Bq Hz.
    destruct HD as (N1 & N2 & H1 & H2). pose proof Dm as [E1 E2].
    assert (Hg0 : forall i j, on_grid s0 i j -> on_grid s i j).
    { intros i j. unfold on_grid. rewrite E1, E2. auto. }
    assert (T0 : total_soil s0 + sum_h (records s) = total_soil s).
    { rewrite <- (recorded_sum (nx s) (ny s)).
      - unfold total_soil. rewrite E1, E2, <- sum2_add. apply sum2_ext.
        intros i j Hi Hj. unfold soil_at, soil_height at 1 2.
        assert (Hg : on_grid s i j) by (split; auto).
        rewrite !Hz by (auto; lia). rewrite Tq.
        destruct (H1 i j Hg) as (_ & _ & B).
        destruct (B 0) as [_ ->]; [unfold layer; auto|].
        destruct (B 2) as [_ ->]; [unfold layer; auto|]. zn. lia.
      - eapply Forall_impl; [|exact H2]. intros e (? & ? & _).
        unfold inside in *. split; [auto|]. lia. }
    assert (C0 : consistent near cz (set_records s0 []) []).
    { split; [cbn; lia|]. split; [cbn; lia|]. split; [|constructor].
      intros i j Hg. change (on_grid s0 i j) in Hg. apply Hg0 in Hg.
      destruct (H1 i j Hg) as ((B0 & B1) & B2 & B3). split; [|split].
      - split; cbn; [rewrite Tq; auto|]. intros k Hk. rewrite Bq, Hz by auto.
        split; [apply B1; auto|apply aligned_0].
      - apply (cell_body_same s); auto.
      - intros k Hk.
        assert (K : 0 <= k < 4 /\ 0 <= k + 1 < 4) by (unfold layer in Hk; lia). split.
        + intros [Hs|Hs]; cbn in Hs; rewrite Hz in Hs; auto; try tauto; exfalso; apply Hs; auto.
        + unfold soil_height. cbn. rewrite !Hz by (auto; lia). reflexivity. }
    split; auto.
  Qed.

  Theorem update_body_soil_good s :
    detached s -> Forall (target_ok s) (records s) ->
    returns (update_body_soil (A := ZNum upm) g tol relocate s) (resettled s).
  Proof.
    intros HD Hr. unfold update_body_soil.
    eapply returns_bind; [apply reset_records_good; auto|].
    cbv beta. intros s0 (Dm & Tq & Bq & A1 & A2 & A3 & A4 & A5 & Hz).
    pose proof (reset_records_cleared s s0 HD Dm Tq Bq Hz) as [T0 C0].
    destruct HD as (N1 & N2 & H1 & H2).
    eapply returns_weaken.
    - apply (for_each_returns_rest _ (fun rest s' =>
        Forall (rec_ok near cz s) rest /\ Forall (target_ok s) rest /\
        consistent near cz s' (records s') /\ same_dims s s' /\ beq s s' /\
        body_area s' = body_area s /\ relax_area s' = relax_area s /\
        impact_area s' = impact_area s /\ rng s' = rng s /\
        total_soil s' + sum_h rest = total_soil s /\
        (length (records s') + length rest <= length (records s))%nat /\
        exists n, wlog s' = wlog s ++ repeat WToTerrain n)).
      + intros e rest s' (Hf & Hf2 & HC & Dm' & Bq' & B1 & B2 & B3 & B4 & B5 & B6 & n & B7).
        inversion Hf as [|? ? He Hf']; subst. inversion Hf2 as [|? ? He2 Hf2']; subst.
        eapply returns_weaken; [apply update_record_good; auto|].
        * eapply rec_ok_dims; eauto.
        * eapply returns_weaken; [exact He2|]. intros r. unfold inside. destruct Dm' as [-> ->]. auto.
        * intros s1 (_ & D1 & D2 & D3 & D4 & D5 & D6 & D7 & D8 & D9 & m & D10).
          split; [auto|]. split; [auto|]. split; [auto|].
          split; [destruct Dm', D2; split; congruence|].
          split; [intros k i j; rewrite D3; apply Bq'|].
          do 4 (split; [congruence|]).
          cbn [sum_h length] in *. split; [lia|]. split; [lia|].
          exists (n + m)%nat. rewrite D10, B7, repeat_app, app_assoc. reflexivity.
      + split; [auto|]. split; [auto|]. split; [exact C0|]. split; [exact Dm|]. split; [exact Bq|].
        do 4 (split; [cbn; auto|]).
        split.
        * rewrite <- T0. f_equal.
        * split; [cbn; lia|]. exists 0%nat. cbn. rewrite app_nil_r. auto.
    - cbv beta. intros s' (_ & _ & HC & Dm' & Bq' & B1 & B2 & B3 & B4 & B5 & B6 & B7).
      cbn in B5, B6. split; [auto|]. do 6 (split; [auto|]).
      split; [lia|]. split; [lia|]. auto.
  Qed.
End BodySoilProofs.
