(** The relaxation phases of the two runs side by side. *)
From Coq Require Import ZArith List Bool Lia Permutation.
From Verif Require Import Outcome Num State ModelRelax Base Spec InvBase RelaxBase
  RelaxTerrainProofs RelaxBodyProofs LockBase LockBound LockRelax.
Import ListNotations.
Open Scope Z_scope.

(** Both calls return, with related results. *)
Definition both {X Y} (Q : X -> Y -> Prop) (a : outcome X) (s : outcome Y) : Prop :=
  exists x y, a = Ok x /\ s = Ok y /\ Q x y.

Lemma both_ok {X Y} (Q : X -> Y -> Prop) x y : Q x y -> both Q (Ok x) (Ok y).
Proof. intros H. exists x, y. auto. Qed.

Lemma both_intro {X Y} (R : X -> Y -> Prop) (I : Y -> Prop) a s :
  sync R a s -> returns s I -> both (fun x y => R x y /\ I y) a s.
Proof.
  destruct s as [y| |]; cbn; try tauto. intros (x & -> & H) HI. exists x, y. auto.
Qed.

Lemma both_weaken {X Y} (Q Q' : X -> Y -> Prop) a s :
  both Q a s -> (forall x y, Q x y -> Q' x y) -> both Q' a s.
Proof. intros (x & y & -> & -> & H) K. exists x, y. auto. Qed.

Lemma both_bind {X Y X' Y'} (Q : X -> Y -> Prop) (S : X' -> Y' -> Prop) a s ka ks :
  both Q a s -> (forall x y, Q x y -> both S (ka x) (ks y)) ->
  both S (bind a ka) (bind s ks).
Proof. intros (x & y & -> & -> & H) K. cbn. auto. Qed.

Lemma both_guard {X Y} (Q : X -> Y -> Prop) b b' a s :
  b = b' -> b' = true -> both Q a s -> both Q (guard b a) (guard b' s).
Proof. intros -> -> H. exact H. Qed.

Lemma both_for_each {X Sa Ss} (Q : Sa -> Ss -> Prop) l
  (fa : X -> Sa -> outcome Sa) (fs : X -> Ss -> outcome Ss) :
  (forall x a s, In x l -> Q a s -> both Q (fa x a) (fs x s)) ->
  forall a s, Q a s -> both Q (for_each l fa a) (for_each l fs s).
Proof.
  induction l as [|x l IH]; intros H1 a s HQ; cbn [for_each].
  - apply both_ok; auto.
  - eapply both_bind; [apply H1; cbn; auto|].
    intros a' s' HQ'. apply IH; auto. intros; apply H1; cbn; auto.
Qed.

(** With an invariant that depends on what is left, and related lists. *)
Lemma both_for_each2 {Xa Xs Sa Ss} (E : Xa -> Xs -> Prop)
  (Q : list Xs -> Sa -> Ss -> Prop) la ls
  (fa : Xa -> Sa -> outcome Sa) (fs : Xs -> Ss -> outcome Ss) :
  Forall2 E la ls ->
  (forall xa x r a s, E xa x -> Q (x :: r) a s -> both (Q r) (fa xa a) (fs x s)) ->
  forall a s, Q ls a s -> both (Q []) (for_each la fa a) (for_each ls fs s).
Proof.
  intros HE H1. induction HE as [|xa x la ls Hx HE IH]; intros a s HQ; cbn [for_each].
  - apply both_ok; auto.
  - eapply both_bind; [eapply H1; eauto|]. intros a' s' HQ'. apply IH; auto.
Qed.

Lemma both_returns {X Y} (Q : X -> Y -> Prop) (P : X -> Prop) a s :
  both Q a s -> (forall x y, Q x y -> P x) -> returns a P.
Proof. intros (x & y & -> & _ & H) K. cbn. eauto. Qed.

Section LockRelaxLoop.
  Context {A : Num}.
  Variable L : locked A.
  Local Notation N := (ZNum (exact L)).
  Local Notation W := (W L).
  Local Notation WB := (WB L).
  Local Notation rel := (rel L).
  Local Notation relr := (relr L).
  Variables Lb T : Z.
  Local Notation lim := (lim (upm := exact L) (l_H L) Lb T (l_K L)).
  Variable near : Pos N -> Prop.
  Variable frame : Z -> Z -> F A -> Pos A.
  Variable g : grid_t A.
  Variable g' : grid_t N.
  Hypothesis G : relg L g g'.
  Variable dA : F A.
  Variable dz : Z.
  Hypothesis Hd : W 1 dA dz.
  Hypothesis Hdh : 0 <= dz.
  Variable buffer : Z.
  Local Notation tA := (l_tA L).
  Local Notation tz := (l_tz L).
  Local Notation cz := (cell_z g' : Z).
  Local Notation good := (good near cz (fr L frame)).

  Lemma tol_pos : 0 < tz.
  Proof. apply l_tz_pos. Qed.
  Lemma tol_half : 2 * tz < cz.
  Proof. rewrite (rg_cz _ _ _ G). apply l_half. Qed.
  Lemma dz_aligned : aligned cz dz.
  Proof. rewrite (rg_cz _ _ _ G). apply (l_aligned _ L) with (a := dA). apply Hd. Qed.

  (** Related states without large heights. *)
  Definition tied (a : sim A) (s : sim N) : Prop :=
    rel 1 a s /\ good s (records s) /\ lim s 0.

  Lemma good_bounded s : good s (records s) -> lim s 0 -> bounded L s.
  Proof.
    intros (Hc & _) Hl.
    destruct (lim_bounds _ _ _ _ near cz s (records s) 0 Hc Hl ltac:(lia)) as (B1 & B2 & B3 & _).
    split; [auto|split; auto].
  Qed.

  Lemma tie n a s : rel n a s -> good s (records s) -> lim s 0 -> tied a s.
  Proof.
    intros R Hg Hl. split; [|auto]. eapply rel_one; eauto. apply good_bounded; auto.
  Qed.

  Lemma relax_terrain_dir_both s0 a s i j d :
    tied a s -> flows s0 s -> inside s0 i j -> In d directions4 ->
    both (fun a s => tied a s /\ flows s0 s)
      (relax_terrain_dir frame g dA tA i j d a)
      (relax_terrain_dir (A := N) (fr L frame) g' dz tz i j d s).
  Proof.
    intros (R & Hg & Hl) Fl Hin Hdi.
    eapply both_weaken.
    - apply both_intro.
      + apply relax_terrain_dir_lock with (1 := G) (2 := Hd) (3 := R).
      + apply (relax_terrain_dir_lim (l_H L) Lb T (l_K L) near (fr L frame) g' dz tz tol_pos tol_half
          Hdh dz_aligned); auto.
        eapply flows_inside; eauto.
    - cbv beta. intros a' s' (R' & G' & F' & L'). split; [eapply tie; eauto|].
      eapply flows_trans; eauto.
  Qed.

  Lemma tied_set_rng a s r : tied a s -> tied (set_rng a r) (set_rng s r).
  Proof.
    intros (R & Hg & Hl). split; [apply rel_set_rng; auto|]. split; [|exact Hl].
    eapply good_same; [|exact Hg]. repeat split.
  Qed.
  Lemma tied_set_equilibrium a s r :
    tied a s -> tied (set_equilibrium a r) (set_equilibrium s r).
  Proof.
    intros (R & Hg & Hl). split; [apply rel_set_equilibrium; auto|]. split; [|exact Hl].
    eapply good_same; [|exact Hg]. repeat split.
  Qed.

  Definition tied3 {X} s0 (a : sim A * area * X) (s : sim N * area * X) : Prop :=
    tied (fst (fst a)) (fst (fst s)) /\ flows s0 (fst (fst s)) /\
    snd (fst a) = snd (fst s) /\ in_box s0 (snd (fst s)) /\ snd a = snd s.

  Lemma relax_terrain_cell_both s0 a s c :
    tied3 s0 a s -> Permutation (snd s) directions4 -> inside s0 (fst c) (snd c) ->
    both (fun a s => tied3 s0 a s /\ Permutation (snd s) directions4)
      (relax_terrain_cell frame g dA tA c a)
      (relax_terrain_cell (A := N) (fr L frame) g' dz tz c s).
  Proof.
    destruct a as [[a ba] da], s as [[s bs] ds], c as [i j].
    intros (Ti & Fl & E1 & Hbox & E2) P Hin. cbn [fst snd] in *. subst ba da.
    unfold relax_terrain_cell.
    replace (rng a) with (rng s) by (symmetry; eapply rel_rng; apply Ti).
    destruct (shuffle ds (rng s)) as [ds' r] eqn:Sh. apply shuffle_eq in Sh.
    assert (P' : Permutation ds' directions4) by (rewrite Sh; auto).
    eapply both_bind with (Q := fun a s => tied a s /\ flows s0 s).
    - apply both_for_each.
      + intros d a1 s1 Hdi (T1 & F1). apply relax_terrain_dir_both; auto.
        eapply Permutation_in; eauto.
      + split; [apply tied_set_rng; auto|]. eapply flows_trans; [exact Fl|]. repeat split.
    - intros a1 s1 (T1 & F1). apply both_ok. split; [|exact P'].
      split; [exact T1|]. split; [exact F1|]. split; [reflexivity|]. split; [|reflexivity].
      cbn [fst snd]. unfold in_box, grow_box, inside in *. cbn. lia.
  Qed.

  Lemma relax_terrain_both a s :
    tied a s -> fits g' s -> int_room buffer s -> 0 <= buffer -> area_in s (impact_area s) ->
    area_in s (relax_area s) ->
    both (fun a' s' => tied a' s' /\ flows_w s s' /\
            impact_area s' = impact_area s /\ area_in s (relax_area s'))
      (relax_terrain frame g dA buffer tA a)
      (relax_terrain (A := N) (fr L frame) g' dz buffer tz s).
  Proof.
    intros Ti Hfit Hroom Hcb Hia Hra. unfold relax_terrain.
    pose proof (tied_set_equilibrium a s true Ti) as T0.
    set (a0 := set_equilibrium a true) in *.
    set (s0 := set_equilibrium s true) in *.
    assert (F0 : flows s s0) by (repeat split).
    rewrite (locate_lock L dA dz Hd a0 s0 (proj1 T0)).
    pose proof (locate_unstable_terrain_cell_in g' dz tz s0) as Hc.
    destruct (locate_unstable_terrain_cell (A := N) dz tz s0) as [cells| |]; cbn [returns] in Hc.
    2,3: exfalso; apply Hc; intros i j Hij; eapply area_in_inside; [|exact Hij]; exact Hia.
    cbn [bind].
    assert (Hcells : Forall (fun c => inside s0 (fst c) (snd c)) cells).
    { eapply Forall_impl; [|apply Hc; intros i j Hij; eapply area_in_inside; [|exact Hij]; exact Hia].
      intros [i j] Hij. eapply area_in_inside; [|exact Hij]. exact Hia. }
    destruct cells as [|c cells0] eqn:Ec.
    { apply both_ok. split; [exact T0|]. split; [apply F0|]. auto. }
    rewrite <- Ec in *. clear Ec c cells0.
    replace (rng a0) with (rng s0) by (symmetry; eapply rel_rng; apply T0).
    destruct (shuffle cells (rng s0)) as [cells' r] eqn:Sh. apply shuffle_eq in Sh.
    rewrite (rg_x _ _ _ G), (rg_y _ _ _ G).
    eapply both_bind with (Q := fun a s => tied3 s0 a s /\ Permutation (snd s) directions4).
    - apply both_for_each.
      + intros c a1 s1 Hci (T1 & P1). apply relax_terrain_cell_both; auto.
        eapply Forall_forall in Hcells; eauto. eapply Permutation_in; eauto.
      + split; [|cbn; auto].
        split; [apply tied_set_rng; auto|]. split; [repeat split|]. split; [reflexivity|].
        split; [|reflexivity]. cbn [fst snd].
        unfold in_box, fits in *. cbn.
        destruct Ti as (_ & ((N1 & N2 & _) & _) & _). lia.
    - intros [[a1 ba] da] [[s1 box] ds] ((T1 & F1 & E1 & Hbox & E2) & _).
      cbn [fst snd] in *. subst ba da.
      unfold in_box, int_room, fits in *. cbn in Hbox.
      rewrite !chk_int_ok by lia. cbn [bind]. apply both_ok.
      split.
      + destruct T1 as (R1 & G1 & L1). split; [apply rel_set_relax_area; auto|].
        split; [|exact L1]. eapply good_same; [|exact G1]. repeat split.
      + split; [eapply flows_w_trans; [apply F0|]; apply F1|].
        split; [apply F1|]. unfold area_in. cbn. lia.
  Qed.

  (** The soil on the body. *)
  Definition tiedb s0 (p : sim A * list (rec_t A)) (q : sim N * list (rec_t N)) : Prop :=
    relp L 1 p q /\ body_loop near (fr L frame) g' s0 q /\ lim (fst q) 0.

  Lemma tie_body n s0 p q : relp L n p q -> body_loop near (fr L frame) g' s0 q ->
    lim (fst q) 0 -> tiedb s0 p q.
  Proof.
    destruct p as [a p], q as [s q]. intros (R & Hp) BL Hl. split; [|auto].
    cbn [fst] in Hl. pose proof BL as ((Hc & _) & _).
    destruct (lim_bounds _ _ _ _ near cz s (records s ++ q) 0 Hc Hl ltac:(lia)) as (B1 & B2 & B3 & _).
    apply Forall_app in B3. destruct B3 as (B3 & B4).
    split; cbn [fst snd] in *.
    - eapply rel_one; eauto. split; [auto|split; auto].
    - eapply rels_one; eauto.
  Qed.

  Lemma relax_body_dir_both s0 p q nn e0 d :
    tiedb s0 p q -> nth_error (records s0) nn = Some e0 -> In d directions4 ->
    both (tiedb s0)
      (relax_body_dir frame g dA tA nn (e_i e0) (e_j e0) (e_ind e0) d p)
      (relax_body_dir (A := N) (fr L frame) g' dz tz nn (e_i e0) (e_j e0) (e_ind e0) d q).
  Proof.
    intros (R & BL & Hl) H0 Hdi.
    eapply both_weaken.
    - apply both_intro.
      + apply relax_body_dir_lock with (1 := G) (2 := Hd) (3 := R).
      + apply (relax_body_dir_lim (l_H L) Lb T (l_K L) near (fr L frame) g' dz tz tol_pos tol_half
          Hdh dz_aligned s0); auto.
    - cbv beta. intros a' s' (R' & BL' & L'). eapply tie_body; eauto.
  Qed.

  Definition tiedb3 {X} s0 (p : sim A * list (rec_t A) * X) (q : sim N * list (rec_t N) * X) : Prop :=
    tiedb s0 (fst p) (fst q) /\ snd p = snd q.

  Lemma relax_body_record_both s0 p q nn :
    tiedb3 s0 p q -> Permutation (snd q) directions4 -> (nn < length (records s0))%nat ->
    both (fun p q => tiedb3 s0 p q /\ Permutation (snd q) directions4)
      (relax_body_record frame g dA tA nn p)
      (relax_body_record (A := N) (fr L frame) g' dz tz nn q).
  Proof.
    destruct p as [[a p] da], q as [[s q] ds]. intros (TB & E) P Hnn. cbn [fst snd] in *. subst da.
    unfold relax_body_record.
    destruct (nth_error (records s0) nn) as [e0|] eqn:E0;
      [|apply nth_error_None in E0; lia].
    pose proof TB as ((R & Hp) & (Hg & Fl & KK) & Hl). cbn [fst snd] in *.
    destruct (keys_nth _ _ _ _ KK E0) as (e & He & E1 & E2 & E3).
    pose proof (rel_nth _ _ _ _ nn R) as Hn. rewrite He in *.
    destruct (nth_error (records a) nn) as [ea|]; [|tauto].
    pose proof Hn as (D1 & D2 & D3 & D4 & D5).
    rewrite (W_lt_tol L _ _ _ D5).
    destruct (fltb _ _); [apply both_ok; split; [split; [exact TB|reflexivity]|exact P]|].
    replace (rng a) with (rng s) by (symmetry; eapply rel_rng; apply R).
    destruct (shuffle ds (rng s)) as [ds' r] eqn:Sh. apply shuffle_eq in Sh.
    assert (P' : Permutation ds' directions4) by (rewrite Sh; auto).
    rewrite D1, D2, D3, E1, E2, E3.
    eapply both_bind with (Q := tiedb s0).
    - apply both_for_each.
      + intros d p1 q1 Hdi T1. apply relax_body_dir_both; auto.
        eapply Permutation_in; eauto.
      + split; [split; [apply rel_set_rng; auto|exact Hp]|]. split; [|exact Hl].
        split; [eapply good_same; [|exact Hg]; repeat split|].
        split; [eapply flows_trans; [exact Fl|]; repeat split|]. exact KK.
    - intros [a1 p1] [s1 q1] T1. apply both_ok. split; [|exact P']. split; [exact T1|reflexivity].
  Qed.

  Lemma relax_body_soil_both a s :
    tied a s ->
    both (fun a' s' => tied a' s' /\ flows s s')
      (relax_body_soil frame g dA tA a)
      (relax_body_soil (A := N) (fr L frame) g' dz tz s).
  Proof.
    intros (R & Hg & Hl). unfold relax_body_soil.
    replace (length (records a)) with (length (records s))
      by (pose proof (rel_records _ _ _ _ R) as Hr; clear - Hr; induction Hr; cbn; auto).
    eapply both_bind with (Q := fun p q => tiedb3 s p q /\ Permutation (snd q) directions4).
    - apply both_for_each.
      + intros nn p q Hnn (T1 & P1). apply relax_body_record_both; auto.
        apply in_seq in Hnn. lia.
      + split; [|cbn; auto]. split; [|reflexivity]. split; [split; [exact R|constructor]|].
        split; [|exact Hl]. split; [rewrite app_nil_r; auto|]. split; [apply flows_refl|auto].
    - intros [[a1 p] da] [[s1 q] ds] ((((R1 & Hp) & (G1 & F1 & _) & L1) & _) & _).
      cbn [fst snd] in *. apply both_ok. split.
      + split; [apply rel_set_records; auto; apply Forall2_app; auto; apply (rel_records _ _ _ _ R1)|].
        split; [|exact L1]. eapply good_same; [|exact G1]. repeat split.
      + eapply flows_trans; [exact F1|]. repeat split.
  Qed.
End LockRelaxLoop.
