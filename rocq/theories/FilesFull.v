(** A results directory whose terrain numbers are all taken. *)
From Coq Require Import ZArith NArith List String Ascii Bool Lia.
From Verif Require Import Outcome Num Base State ModelFiles FilesProofs FilesClaims.
Import ListNotations.
Open Scope string_scope.

(** Every later state is written to number 99999: only the last one is kept. *)
Lemma full_last : forall (A : Num) (P : printer A) src (l : list (sim A)) (s : sim A) (fs : files),
  (forall m, (m < 100000)%N -> fs (results_dir src ++ "terrain_" ++ number m ++ ".csv") <> None) ->
  let fs' := write_all P src (l ++ [s])%list fs in
  fs' (results_dir src ++ "terrain_" ++ number 99999 ++ ".csv") = Some (terrain_text P s) /\
  fs' (results_dir src ++ "body_soil_" ++ number 99999 ++ ".csv") = Some (body_soil_text P s) /\
  forall f, f <> results_dir src ++ "terrain_" ++ number 99999 ++ ".csv" ->
    f <> results_dir src ++ "body_soil_" ++ number 99999 ++ ".csv" -> fs' f = fs f.
Proof.
  intros A P src l s fs Full.
  set (tn m := results_dir src ++ "terrain_" ++ number m ++ ".csv") in *.
  set (bn m := results_dir src ++ "body_soil_" ++ number m ++ ".csv") in *.
  assert (W : forall (s : sim A) fs, (forall m, (m < 100000)%N -> fs (tn m) <> None) ->
    let fs' := write_soil P src s fs in
    fs' (tn 99999%N) = Some (terrain_text P s) /\ fs' (bn 99999%N) = Some (body_soil_text P s) /\
    (forall f, f <> tn 99999%N -> f <> bn 99999%N -> fs' f = fs f) /\
    forall m, (m < 100000)%N -> fs' (tn m) <> None).
  { clear. intros s fs Full fs'. destruct (write_soil_spec P src s fs) as (n & F & W1 & W2 & W3).
    destruct F as (L & [(E & _)|(-> & _)]); [destruct (Full n L); exact E|].
    change (fs' (tn 99999%N) = Some (terrain_text P s)) in W1.
    change (fs' (bn 99999%N) = Some (body_soil_text P s)) in W2.
    change (forall f, f <> tn 99999%N -> f <> bn 99999%N -> fs' f = fs f) in W3.
    split; [exact W1|]. split; [exact W2|]. split; [exact W3|].
    intros m M. destruct (string_dec (tn m) (tn 99999%N)) as [->|N1].
    { intros Q. rewrite W1 in Q. discriminate Q. }
    destruct (string_dec (tn m) (bn 99999%N)) as [->|N2].
    { intros Q. rewrite W2 in Q. discriminate Q. }
    rewrite W3 by assumption. apply Full; exact M. }
  revert fs Full. induction l as [|x l IH]; intros fs Full fs'.
  - destruct (W s fs Full) as (W1 & W2 & W3 & _). repeat split; assumption.
  - destruct (W x fs Full) as (_ & _ & W3 & W4).
    destruct (IH (write_soil P src x fs) W4) as (I1 & I2 & I3).
    split; [exact I1|]. split; [exact I2|]. intros f N1 N2.
    transitivity (write_soil P src x fs f); [apply I3; assumption|apply W3; assumption].
Qed.

Lemma full_one : forall (A : Num) (P : printer A) src (s : sim A) (fs : files),
  (forall m, (m < 100000)%N -> fs (results_dir src ++ "terrain_" ++ number m ++ ".csv") <> None) ->
  write_soil P src s fs (results_dir src ++ "terrain_" ++ number 99999 ++ ".csv") = Some (terrain_text P s).
Proof.
  intros A P src s fs Full. destruct (full_last A P src [] s fs Full) as (Q & _).
  cbn [app write_all] in Q. exact Q.
Qed.

Lemma full_overwritten :
  exists fs f, exists old : string, fs f = Some old /\
  forall (A : Num) (P : printer A) (s : sim A),
    write_soil P "utils.cpp" s fs f = Some (terrain_text P s) /\ terrain_text P s <> old.
Proof.
  exists (fun _ => Some "important"), (results_dir "utils.cpp" ++ "terrain_" ++ number 99999 ++ ".csv"), "important".
  split; [reflexivity|]. intros A P s. split.
  - apply full_one. discriminate.
  - unfold terrain_text, header. cbn. discriminate.
Qed.
