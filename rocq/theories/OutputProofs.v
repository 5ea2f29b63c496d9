(** The files and the states of the main loop of the example program. *)
From Coq Require Import ZArith NArith List Bool String Lia.
From Verif Require Import Outcome Num State Base Flt ModelTypes ModelGeometry ModelUtils ModelStep
  ModelFiles ModelWhole ModelCheckLoop ModelOutputs FilesProofs FilesClaims.
Import ListNotations.
Open Scope string_scope.

Definition stem_of (k : kind) : string := match k with Bucket => "bucket" | Blade => "blade" end.

(** The numbers below [n] are taken, the others are free. *)
Definition taken (fs : files) (path stem : string) (n : N) : Prop :=
  (forall m, (m < n)%N -> fs (file_name path stem m) <> None) /\
  (forall m, (n <= m < 100000)%N -> fs (file_name path stem m) = None).

Lemma stem_terrain k path n m : file_name path (stem_of k) n <> file_name path "terrain" m.
Proof. destruct k; apply file_name_stem; discriminate. Qed.
Lemma stem_soil k path n m : file_name path (stem_of k) n <> file_name path "body_soil" m.
Proof.
  destruct k; intros E; apply append_cancel in E; cbn in E; discriminate.
Qed.

Section Loop.
  Context {A : Num} {K : flt}.
  Variable G : geom A.
  Variable g : grid_t A.
  Variable P : params A.
  Variable k : kind.
  Variable pr : printer A.
  Variable pf : sf K -> string.
  Variable src : string.
  Variable bp : pose G -> gbody K.
  Notation dir := (results_dir src).
  Notation loop := (main_loop G g P k pr pf src bp).

  Definition body_text (p : pose G) : string :=
    let c := calc_body_corner_pos (pos_ (bp p)) (ori_ (bp p)) (bp p) in
    match k with Bucket => bucket_text pf c | Blade => blade_text pf c end.

  Lemma write_outputs_eq (w : world G) fs :
    write_outputs G k pr pf src bp w fs =
    let fs1 := write_soil pr src (fst w) fs in
    put fs1 (free_name fs1 dir (stem_of k)) (body_text (snd w)).
  Proof. unfold write_outputs, body_text. destruct k; reflexivity. Qed.

  Lemma write_outputs_at (w : world G) fs n m :
    (n < 100000)%N -> (m < 100000)%N -> taken fs dir "terrain" n -> taken fs dir (stem_of k) m ->
    let fs' := write_outputs G k pr pf src bp w fs in
    fs' (file_name dir "terrain" n) = Some (terrain_text pr (fst w)) /\
    fs' (file_name dir "body_soil" n) = Some (body_soil_text pr (fst w)) /\
    fs' (file_name dir (stem_of k) m) = Some (body_text (snd w)) /\
    (forall f, f <> file_name dir "terrain" n -> f <> file_name dir "body_soil" n ->
       f <> file_name dir (stem_of k) m -> fs' f = fs f) /\
    taken fs' dir "terrain" (n + 1) /\ taken fs' dir (stem_of k) (m + 1).
  Proof.
    intros Hn Hm Tn Tm. cbv zeta. rewrite write_outputs_eq. cbv zeta.
    destruct (write_soil_at pr src (fst w) fs n Hn Tn) as (W1 & W2 & W3 & W4).
    set (fs1 := write_soil pr src (fst w) fs) in *.
    assert (Sm : forall m', fs1 (file_name dir (stem_of k) m') = fs (file_name dir (stem_of k) m')).
    { intros m'. apply W3; [apply stem_terrain|apply stem_soil]. }
    destruct (free_name_spec fs1 dir (stem_of k)) as (m2 & F & ->).
    assert (Fm : first_free fs1 dir (stem_of k) m).
    { split; [exact Hm|]. left. destruct Tm as [T1 T2]. split.
      - rewrite Sm. apply T2. lia.
      - intros m' M'. rewrite Sm. apply T1. exact M'. }
    pose proof (first_free_unique _ _ _ _ _ F Fm) as ->.
    assert (D1 : forall n', file_name dir "terrain" n' <> file_name dir (stem_of k) m)
      by (intros n' E; symmetry in E; exact (stem_terrain _ _ _ _ E)).
    assert (D2 : forall n', file_name dir "body_soil" n' <> file_name dir (stem_of k) m)
      by (intros n' E; symmetry in E; exact (stem_soil _ _ _ _ E)).
    split; [rewrite put_other; auto|]. split; [rewrite put_other; auto|].
    split; [apply put_same|]. split; [intros f F1 F2 F3; rewrite put_other; auto|]. split.
    - destruct W4 as [U1 U2]. split; intros m' M'; rewrite put_other by apply D1; auto.
    - destruct Tm as [T1 T2]. split; intros m' M'.
      + destruct (N.eq_dec m' m) as [->|Ne]; [rewrite put_same; discriminate|].
        rewrite put_other; [rewrite Sm; apply T1; lia|]. intros E. apply file_name_inj in E; lia.
      + rewrite put_other; [rewrite Sm; apply T2; lia|]. intros E. apply file_name_inj in E; lia.
  Qed.

  (** Writing does not change the simulation. *)
  Lemma loop_writes fuel chk v ps : forall w fs fs0 w',
    (exists fs', loop fuel chk true v ps w fs = Ok (w', fs')) <->
    loop fuel chk false v ps w fs0 = Ok (w', fs0).
  Proof.
    induction ps as [|p ps IH]; intros w fs fs0 w'; cbn [main_loop].
    - split; [intros (fs' & E); inversion E; reflexivity|intros E; inversion E; eauto].
    - destruct (step G g P fuel p w) as [[w1 b]| |]; cbn [bind];
        [|split; [intros (? & E)|intros E]; discriminate|split; [intros (? & E)|intros E]; discriminate].
      destruct (if chk then _ else _) as [s| |]; cbn [bind];
        [apply IH|split; [intros (? & E)|intros E]; discriminate|split; [intros (? & E)|intros E]; discriminate].
  Qed.

  Lemma loop_run fuel v ps fs : forall w w',
    loop fuel false false v ps w fs = Ok (w', fs) <-> run G g P fuel ps w = Ok w'.
  Proof.
    induction ps as [|p ps IH]; intros w w'; cbn [main_loop run].
    - split; intros E; inversion E; reflexivity.
    - destruct (step G g P fuel p w) as [[w1 b]| |]; cbn [bind]; [|split; discriminate|split; discriminate].
      replace (fst w1, snd w1) with w1 by (destruct w1; reflexivity). apply IH.
  Qed.

  Lemma loop_checked fuel v ps fs : forall w w',
    loop fuel true false v ps w fs = Ok (w', fs) <->
    exists answers, checked_run G g P fuel v ps w = Ok (w', answers).
  Proof.
    induction ps as [|p ps IH]; intros w w'; cbn [main_loop checked_run].
    - split; [intros E; inversion E; eauto|intros (? & E); inversion E; reflexivity].
    - destruct (step G g P fuel p w) as [[w1 b]| |]; cbn [bind];
        [|split; [intros E|intros (? & E)]; discriminate|split; [intros E|intros (? & E)]; discriminate].
      destruct (check g P v (fst w1)) as [[s a]| |]; cbn [bind];
        [|split; [intros E|intros (? & E)]; discriminate|split; [intros E|intros (? & E)]; discriminate].
      rewrite IH. destruct (checked_run G g P fuel v ps (s, snd w1)) as [[w2 l]| |]; cbn [bind].
      + split; intros (? & E); inversion E; eauto.
      + split; intros (? & E); discriminate.
      + split; intros (? & E); discriminate.
  Qed.

  (** The files: number [n + i] is the state after [i + 1] turns. *)
  Lemma loop_files fuel chk v ps : forall w fs w' fs' n m,
    loop fuel chk true v ps w fs = Ok (w', fs') ->
    (n + N.of_nat (List.length ps) <= 100000)%N -> (m + N.of_nat (List.length ps) <= 100000)%N ->
    taken fs dir "terrain" n -> taken fs dir (stem_of k) m ->
    (forall i, (i < List.length ps)%nat -> exists wi,
       loop fuel chk false v (firstn (S i) ps) w fs = Ok (wi, fs) /\
       fs' (file_name dir "terrain" (n + N.of_nat i)) = Some (terrain_text pr (fst wi)) /\
       fs' (file_name dir "body_soil" (n + N.of_nat i)) = Some (body_soil_text pr (fst wi)) /\
       fs' (file_name dir (stem_of k) (m + N.of_nat i)) = Some (body_text (snd wi))) /\
    (forall f, (forall i, (i < N.of_nat (List.length ps))%N ->
        f <> file_name dir "terrain" (n + i) /\ f <> file_name dir "body_soil" (n + i) /\
        f <> file_name dir (stem_of k) (m + i)) -> fs' f = fs f).
  Proof.
    induction ps as [|p ps IH]; intros w fs w' fs' n m E Hn Hm Tn Tm; cbn [main_loop List.length] in *.
    - inversion E; subst. split; [intros i Hi; lia|auto].
    - destruct (step G g P fuel p w) as [[w1 b]| |] eqn:Es; cbn [bind] in E; [|discriminate|discriminate].
      set (chks := if chk then '(s, _) <- check g P v (fst w1) ;; Ok s else Ok (fst w1)) in E.
      destruct chks as [s| |] eqn:Ec; cbn [bind] in E; [|discriminate|discriminate].
      destruct (write_outputs_at (s, snd w1) fs n m ltac:(lia) ltac:(lia) Tn Tm)
        as (W1 & W2 & W3 & W4 & W5 & W6).
      set (fs1 := write_outputs G k pr pf src bp (s, snd w1) fs) in *.
      destruct (IH (s, snd w1) fs1 w' fs' (n + 1)%N (m + 1)%N E ltac:(lia) ltac:(lia) W5 W6) as (I1 & I2).
      assert (First : forall rest f0, loop fuel chk false v (p :: rest) w f0 =
        loop fuel chk false v rest (s, snd w1) f0).
      { intros rest f0. cbn [main_loop]. rewrite Es. cbn [bind]. fold chks. rewrite Ec. reflexivity. }
      split.
      + intros i Hi. destruct i as [|i].
        * exists (s, snd w1). split; [rewrite firstn_cons, First; reflexivity|].
          rewrite !N.add_0_r.
          split; [|split]; (etransitivity; [apply I2|eassumption]); intros j Hj; repeat split.
          -- intros Q. apply file_name_inj in Q; lia.
          -- apply file_name_stem. discriminate.
          -- intros Q. symmetry in Q. exact (stem_terrain _ _ _ _ Q).
          -- apply file_name_stem. discriminate.
          -- intros Q. apply file_name_inj in Q; lia.
          -- intros Q. symmetry in Q. exact (stem_soil _ _ _ _ Q).
          -- apply stem_terrain.
          -- apply stem_soil.
          -- intros Q. apply file_name_inj in Q; lia.
        * destruct (I1 i ltac:(lia)) as (wi & L & F).
          exists wi. split.
          -- rewrite firstn_cons, First.
             apply (loop_writes fuel chk v (firstn (S i) ps) (s, snd w1) fs fs wi).
             apply (loop_writes fuel chk v (firstn (S i) ps) (s, snd w1) fs fs1 wi). exact L.
          -- replace (n + N.of_nat (S i))%N with (n + 1 + N.of_nat i)%N by lia.
             replace (m + N.of_nat (S i))%N with (m + 1 + N.of_nat i)%N by lia. exact F.
      + intros f Hf. rewrite I2.
        * destruct (Hf 0%N ltac:(lia)) as (F1 & F2 & F3). rewrite N.add_0_r in F1, F2.
          rewrite N.add_0_r in F3. apply W4; auto.
        * intros i Hi. destruct (Hf (i + 1)%N ltac:(lia)) as (F1 & F2 & F3).
          replace (n + 1 + i)%N with (n + (i + 1))%N by lia.
          replace (m + 1 + i)%N with (m + (i + 1))%N by lia. auto.
  Qed.
End Loop.
