From Coq Require Import Permutation.
From Verif Require Import Base Num DataModel DataSpec DataProofs.
Local Open Scope nat_scope.
Local Open Scope outcome_scope.
Local Open Scope list_scope.

Section P.
Context {N : Num}.

Definition seq_flags (done : list (list (list F))) (size : nat) (st : nat * list (list F) * list bool * list bool) : Prop :=
  let '(i, ins, first, ev) := st in
  i = length (concat done) /\ ins = concat done /\ length first = size /\ length ev = size /\
  (forall s v k, nth_error done s = Some v -> k < length v ->
     nth_error first (position_of done s k) = Some (k =? 0) /\
     nth_error ev (position_of done s k) = Some (S k =? length v)) /\
  (forall p, i <= p -> p < size -> nth_error first p = Some false /\ nth_error ev p = Some false).

Lemma position_of_lt {A} (l : list (list A)) s v k :
  nth_error l s = Some v -> k < length v -> position_of l s k < length (concat l).
Proof.
  unfold position_of. revert s. induction l as [|a l IH]; intros [|s] H Hk; cbn in *; try discriminate.
  - injection H as ->. rewrite app_length. lia.
  - rewrite !app_length. specialize (IH s H Hk). lia.
Qed.

Lemma position_of_app {A} (l l' : list (list A)) s k : s < length l -> position_of (l ++ l') s k = position_of l s k.
Proof. intros H. unfold position_of. rewrite firstn_app. replace (s - length l) with 0 by lia. cbn. now rewrite app_nil_r. Qed.

Lemma position_of_last {A} (l : list (list A)) v l' k : position_of (l ++ v :: l') (length l) k = length (concat l) + k.
Proof. unfold position_of. rewrite firstn_app, firstn_all, Nat.sub_diag. cbn. now rewrite app_nil_r. Qed.

Lemma flatten_step_inv done size st v :
  v <> [] -> length (concat done) + length v <= size ->
  seq_flags done size st -> exists st', flatten_step true st v = Ok st' /\ seq_flags (done ++ [v]) size st'.
Proof.
  destruct st as [[[i ins] first] ev]. intros Hv Hs (Hi & Hins & Hlf & Hle & Hd & Ht).
  assert (Hlv : 0 < length v) by (destruct v; cbn in *; [congruence|lia]).
  unfold flatten_step. unfold lset at 1. destruct (Nat.ltb_spec i (length first)); [|lia]. cbn [bind].
  destruct (i + length v) as [|k0] eqn:Ek; [lia|].
  unfold lset. destruct (Nat.ltb_spec k0 (length ev)); [|lia]. cbn [bind].
  eexists; split; [reflexivity|]. unfold seq_flags.
  rewrite !concat_app. cbn [concat]. rewrite app_nil_r, app_length, !replace_length.
  repeat split; auto; try congruence; try lia.
  - rewrite nth_error_replace. destruct (Nat.ltb_spec i (length first)); [|lia].
    destruct (Nat.ltb_spec s (length done)).
    + rewrite position_of_app by auto. rewrite nth_error_app1 in H1 by auto.
      pose proof (position_of_lt _ _ _ _ H1 H2).
      destruct (Nat.eqb_spec (position_of done s k) i); [lia|]. now apply (Hd s v0 k).
    + assert (s = length done). { assert (s < length (done ++ [v])) by (apply nth_error_Some; congruence). rewrite app_length in *; cbn in *; lia. }
      subst s. rewrite position_of_last. rewrite nth_error_app2, Nat.sub_diag in H1 by auto. injection H1 as ->.
      destruct (Nat.eqb_spec (length (concat done) + k) i), (Nat.eqb_spec k 0); try lia; auto.
      destruct (Ht (length (concat done) + k)) as [-> _]; try lia. auto.
  - rewrite nth_error_replace. destruct (Nat.ltb_spec k0 (length ev)); [|lia].
    destruct (Nat.ltb_spec s (length done)).
    + rewrite position_of_app by auto. rewrite nth_error_app1 in H1 by auto.
      pose proof (position_of_lt _ _ _ _ H1 H2).
      destruct (Nat.eqb_spec (position_of done s k) k0); [lia|]. now apply (Hd s v0 k).
    + assert (s = length done). { assert (s < length (done ++ [v])) by (apply nth_error_Some; congruence). rewrite app_length in *; cbn in *; lia. }
      subst s. rewrite position_of_last. rewrite nth_error_app2, Nat.sub_diag in H1 by auto. injection H1 as ->.
      destruct (Nat.eqb_spec (length (concat done) + k) k0), (Nat.eqb_spec (S k) (length v0)); try lia; auto.
      destruct (Ht (length (concat done) + k)) as [_ ->]; try lia. auto.
  - rewrite nth_error_replace. destruct (Nat.eqb_spec p i); [lia|]. apply Ht; lia.
  - rewrite nth_error_replace. destruct (Nat.eqb_spec p k0); [lia|]. apply Ht; lia.
Qed.

Lemma flatten_loop done size st todo :
  Forall (fun v => v <> []) todo -> length (concat done) + length (concat todo) <= size ->
  seq_flags done size st -> exists st', ofold (flatten_step true) todo st = Ok st' /\ seq_flags (done ++ todo) size st'.
Proof.
  revert done st. induction todo as [|v todo IH]; intros done st Hf Hs H; cbn [ofold].
  - rewrite app_nil_r. eauto.
  - inversion Hf; subst. cbn in Hs. rewrite app_length in Hs.
    destruct (flatten_step_inv done size st v) as (st1 & E & H1); auto; [lia|].
    rewrite E. cbn [bind]. destruct (IH (done ++ [v]) st1) as (st2 & E2 & H2'); auto.
    + rewrite concat_app, app_length. cbn. rewrite app_nil_r. lia.
    + rewrite <- app_assoc in H2'. eauto.
Qed.

Lemma totalSize_concat (in3 : list (list (list F))) : totalSize in3 = length (concat in3).
Proof.
  unfold totalSize.
  assert (H : forall n, fold_left (fun s v => s + length v) in3 n = n + length (concat in3)).
  { induction in3 as [|v l IH]; intros n; cbn; auto. rewrite IH, app_length. lia. }
  apply H.
Qed.

Lemma nth_error_repeat_lt {A} (x : A) n p : p < n -> nth_error (repeat x n) p = Some x.
Proof. intros H. rewrite nth_error_nth' with (d := x) by (rewrite repeat_length; auto). now rewrite nth_repeat. Qed.

Lemma flatten_init size : seq_flags [] size (0, [], repeat false size, repeat false size).
Proof.
  unfold seq_flags. cbn. rewrite repeat_length. repeat split; auto.
  - destruct s; discriminate.
  - destruct s; discriminate.
  - now apply nth_error_repeat_lt.
  - now apply nth_error_repeat_lt.
Qed.

(* the training variant of the loop produces the same inputs and first flags *)
Lemma flatten_train_eq todo : forall i ins first ev ev' i' ins' first' ev'',
  ofold (flatten_step true) todo (i, ins, first, ev) = Ok (i', ins', first', ev'') ->
  ofold (flatten_step false) todo (i, ins, first, ev') = Ok (i', ins', first', ev').
Proof.
  induction todo as [|v todo IH]; cbn [ofold]; intros i ins first ev ev' i' ins' first' ev'' H.
  - injection H as <- <- <- <-. reflexivity.
  - unfold flatten_step at 1 in H. unfold flatten_step at 1.
    destruct (lset first i true) as [f1| |]; cbn [bind] in *; try discriminate.
    destruct (i + length v) eqn:E; cbn [bind] in *; try discriminate.
    destruct (lset ev n true) as [e1| |]; cbn [bind] in *; try discriminate.
    eapply IH; eauto.
Qed.

Lemma flatten_set_test in3 :
  Forall (fun v => v <> []) in3 ->
  exists first ev, flatten_set true in3 = Ok (mkSet (length (concat in3)) (length in3) (concat in3) [] [] first [] ev)
    /\ seq_flags in3 (length (concat in3)) (length (concat in3), concat in3, first, ev).
Proof.
  intros Hf. unfold flatten_set. rewrite totalSize_concat.
  destruct (flatten_loop [] (length (concat in3)) (0, [], repeat false (length (concat in3)), repeat false (length (concat in3))) in3 Hf)
    as ([[[i ins] first] ev] & E & H); auto using flatten_init.
  rewrite E. cbn [bind]. pose proof H as (Hi & Hins & _). subst i ins. eauto.
Qed.

Lemma flatten_set_train in3 :
  Forall (fun v => v <> []) in3 ->
  exists first ev, flatten_set false in3 = Ok (mkSet (length (concat in3)) (length in3) (concat in3) [] [] first [] [])
    /\ seq_flags in3 (length (concat in3)) (length (concat in3), concat in3, first, ev).
Proof.
  intros Hf. unfold flatten_set. rewrite totalSize_concat.
  destruct (flatten_loop [] (length (concat in3)) (0, [], repeat false (length (concat in3)), repeat false (length (concat in3))) in3 Hf)
    as ([[[i ins] first] ev] & E & H); auto using flatten_init.
  rewrite (flatten_train_eq _ _ _ _ _ [] _ _ _ _ E). cbn [bind]. pose proof H as (Hi & Hins & _). subst i ins. eauto.
Qed.

Lemma flatten_both_spec in3 :
  Forall (fun v => v <> []) in3 ->
  exists first ev, flatten_both in3 =
     Ok (mkSet (length (concat in3)) (length in3) (concat in3) [] [] first [] [],
         mkSet (length (concat in3)) (length in3) (concat in3) [] [] first [] ev)
    /\ seq_flags in3 (length (concat in3)) (length (concat in3), concat in3, first, ev).
Proof.
  intros Hf. unfold flatten_both. rewrite totalSize_concat.
  destruct (flatten_loop [] (length (concat in3)) (0, [], repeat false (length (concat in3)), repeat false (length (concat in3))) in3 Hf)
    as ([[[i ins] first] ev] & E & H); auto using flatten_init.
  rewrite E. cbn [bind]. pose proof H as (Hi & Hins & _). subst i ins. eauto.
Qed.

Lemma seq_ctor_nil (tr : Set_) : seq_ctor tr = Ok [].
Proof. reflexivity. Qed.

(* ---- initialize on sequential data ---- *)
Lemma problem_isValid_ok p tr : s_labels tr <> [] ->
  (label_ok p (s_labels tr) /\ problem_isValid p tr = Ok 0) \/ (~ label_ok p (s_labels tr) /\ problem_isValid p tr = Ok 406).
Proof.
  intros Hne. destruct (s_labels tr) as [|l0 ls] eqn:E; [congruence|].
  unfold problem_isValid, label_ok. destruct p.
  - rewrite E. unfold lget; cbn [nth_error bind]. destruct (Nat.ltb_spec (length l0) 2).
    + right. split; auto. intros H'. specialize (H' eq_refl l0 eq_refl). lia.
    + left. split; auto. intros _ l Hl. injection Hl as <-. auto.
  - left; split; auto. discriminate.
  - left; split; auto. discriminate.
Qed.

Lemma data_isValid_cases p t tr te :
  s_shuffled te = [] -> s_size tr = length (s_labels tr) -> s_labels tr <> [] ->
  (label_ok p (s_labels tr) /\ data_isValid p t tr te = Ok (temporal_isValid t tr te)) \/
  (~ label_ok p (s_labels tr) /\ data_isValid p t tr te = Ok 406).
Proof.
  intros Hsh Hsz Hne. unfold data_isValid. rewrite Hsh. cbn [isEmpty negb andb].
  rewrite Hsz, Nat.eqb_refl. cbn [negb]. rewrite andb_false_r. cbn [andb].
  destruct (problem_isValid_ok p tr Hne) as [[H E]|[H E]]; rewrite E; cbn; auto.
Qed.

Lemma initialize_sequential p rec tr te trLab teLab :
  s_inputs tr <> [] -> trLab <> [] ->
  s_shuffled te = [] ->
  (label_ok p trLab /\ length (s_first tr) = length trLab /\ length (s_first te) = length teLab /\
   s_train tr = [] /\ s_train te = [] /\ s_eval tr = [] /\ length (s_eval te) = length teLab /\
   exists m nl, initialize p sequential rec tr te (s_inputs tr) trLab (s_inputs te) teLab =
     Ok (mkData p sequential
          (mkSet (length trLab) (s_nseq tr) (s_inputs tr) trLab (seq 0 (length trLab)) (s_first tr) [] [])
          (mkSet (length teLab) (s_nseq te) (s_inputs te) teLab [] (s_first te) [] (s_eval te))
          m nl (flit 1 10) (flit 1 2) (TSeq []) [] []))
  \/ (exists msg, initialize p sequential rec tr te (s_inputs tr) trLab (s_inputs te) teLab = Throw msg).
Proof.
  intros Hin Hlab Hsh. unfold initialize.
  destruct (rev_cons_nonempty _ Hin) as (x & t & ->). destruct (rev_cons_nonempty _ Hlab) as (y & t' & ->).
  rewrite seq_ctor_nil. cbn [bind]. rewrite Hsh.
  set (tr' := mkSet (length trLab) (s_nseq tr) (s_inputs tr) trLab (seq 0 (length trLab)) (s_first tr) (s_train tr) (s_eval tr)).
  set (te' := mkSet (length teLab) (s_nseq te) (s_inputs te) teLab [] (s_first te) (s_train te) (s_eval te)).
  destruct (data_isValid_cases p (TSeq []) tr' te') as [[Hl E]|[Hl E]]; auto; rewrite E; cbn [bind].
  - unfold temporal_isValid. cbn [s_size s_first s_train s_eval tr' te'].
    destruct (Nat.eqb_spec (length (s_first tr)) (length trLab)); cbn [negb orb]; [|right; cbn; eauto].
    destruct (Nat.eqb_spec (length (s_first te)) (length teLab)); cbn [negb orb]; [|right; cbn; eauto].
    destruct (s_train tr) eqn:E1; cbn [isEmpty negb orb]; [|right; cbn; eauto].
    destruct (s_train te) eqn:E2; cbn [isEmpty negb orb]; [|right; cbn; eauto].
    destruct (s_eval tr) eqn:E3; cbn [isEmpty negb orb]; [|right; cbn; eauto].
    destruct (Nat.eqb_spec (length (s_eval te)) (length teLab)); cbn [negb orb]; [|right; cbn; eauto].
    left. repeat (split; auto). unfold tr', te'. rewrite ?E1, ?E2, ?E3. cbn. eauto.
  - right. cbn. eauto.
Qed.

Lemma concat_nonempty {A} (l : list (list A)) : Forall (fun v => v <> []) l -> l <> [] -> concat l <> [].
Proof. destruct l as [|v l]; [congruence|]. intros H _ E. inversion H; subst. cbn in E. apply app_eq_nil in E. tauto. Qed.

Lemma nth_error_concat {A} (l : list (list A)) s v k :
  nth_error l s = Some v -> k < length v -> nth_error (concat l) (position_of l s k) = nth_error v k.
Proof.
  revert s. unfold position_of. induction l as [|a l IH]; intros [|s] H Hk; cbn in *; try discriminate.
  - injection H as ->. now rewrite nth_error_app1 by lia.
  - rewrite app_length, nth_error_app2 by lia.
    replace (length a + length (concat (firstn s l)) + k - length a) with (length (concat (firstn s l)) + k) by lia.
    now apply IH.
Qed.

(* one-set constructor *)
Lemma sequential_flags_one_set_l p ins labs rec :
  Forall (fun v => v <> []) ins -> ins <> [] -> length labs = length (concat ins) -> label_ok p labs ->
  exists d, mkData2_3D p ins labs sequential rec = Ok d /\
   forall s v k x i, nth_error ins s = Some v -> nth_error v k = Some x -> i = position_of ins s k ->
     isFirstTraining d i = Ok (k =? 0) /\ isFirstTesting d i = Ok (k =? 0) /\
     needToEvaluate d i = Ok (S k =? length v) /\ needToLearn d i = Ok true /\
     getTestingData d i = Ok x /\ (exists y, nth_error labs i = Some y /\ exposes d i x y).
Proof.
  intros Hf Hne Hlen Hlab. destruct (flatten_both_spec ins Hf) as (first & ev & E & Hfl).
  pose proof Hfl as (_ & _ & Hl1 & Hl2 & Hd & _).
  unfold mkData2_3D. rewrite E. cbn [bind].
  set (tr := mkSet _ _ _ _ _ _ [] []). set (te := mkSet _ _ _ _ _ _ [] ev).
  assert (Hc : concat ins <> []) by now apply concat_nonempty.
  assert (Hlabne : labs <> []). { intros ->. cbn in Hlen. destruct (concat ins); cbn in *; congruence. }
  destruct (initialize_sequential p rec tr te labs labs Hc Hlabne eq_refl) as [(_ & _ & _ & _ & _ & _ & _ & m & nl & E1)|[msg E1]]; auto.
  - rewrite E1. eexists; split; [reflexivity|].
    intros s v k x i Hs Hk Hidef.
    assert (Hkl : k < length v) by (apply nth_error_Some; congruence).
    assert (Hi : i < length labs) by (rewrite Hlen, Hidef; now apply position_of_lt with (v := v)).
    pose proof (nth_error_concat ins s v k Hs Hkl) as HC. rewrite <- Hidef in HC.
    destruct (Hd s v k Hs Hkl) as [H1 H2].
    unfold isFirstTraining, isFirstTesting, needToEvaluate, needToLearn, getTestingData. cbn.
    unfold lget. rewrite <- Hidef in H1, H2. rewrite H1, H2.
    rewrite HC, Hk.
    repeat split; auto.
    destruct (nth_error labs i) as [y|] eqn:Ey; [|apply nth_error_None in Ey; lia].
    exists y; split; auto. apply exposes_visits. unfold visits. cbn. unfold lget.
    split; exists i; (split; [rewrite (nth_error_nth' _ 0) by (rewrite seq_length; lia); rewrite seq_nth by lia; reflexivity|]).
    + now rewrite HC, Hk.
    + now rewrite Ey.
  - exfalso. revert E1. unfold initialize.
    destruct (rev_cons_nonempty _ Hc) as (x & t & Hx). cbn [s_inputs tr te]. rewrite Hx.
    destruct (rev_cons_nonempty _ Hlabne) as (y & t' & ->).
    rewrite seq_ctor_nil. cbn [bind].
    destruct (data_isValid_cases p (TSeq []) (mkSet (length labs) (length ins) (concat ins) labs (seq 0 (length labs)) first [] [])
       (mkSet (length labs) (length ins) (concat ins) labs [] first [] ev)) as [[_ E2]|[Hn _]]; auto.
    cbn [s_nseq s_first s_train s_eval s_shuffled tr te]. rewrite E2. cbn [bind].
    unfold temporal_isValid. cbn [s_size s_first s_train s_eval isEmpty negb orb].
    rewrite Hl1, Hl2, Hlen, Nat.eqb_refl. cbn. discriminate.
Qed.

(* two-set constructor *)
Lemma sequential_flags_two_sets_l p trIn trLab teIn teLab rec :
  Forall (fun v => v <> []) trIn -> trIn <> [] -> Forall (fun v => v <> []) teIn ->
  length trLab = length (concat trIn) -> length teLab = length (concat teIn) -> label_ok p trLab ->
  exists d, mkData4_3D p trIn trLab teIn teLab sequential rec = Ok d /\
   (forall s v k x i, nth_error trIn s = Some v -> nth_error v k = Some x -> i = position_of trIn s k ->
     isFirstTraining d i = Ok (k =? 0) /\ needToLearn d i = Ok true /\
     (exists y, nth_error trLab i = Some y /\ exposes d i x y)) /\
   (forall s v k x i, nth_error teIn s = Some v -> nth_error v k = Some x -> i = position_of teIn s k ->
     isFirstTesting d i = Ok (k =? 0) /\ needToEvaluate d i = Ok (S k =? length v) /\
     getTestingData d i = Ok x).
Proof.
  intros Hf Hne Hfe Hlen Hlene Hlab.
  destruct (flatten_set_train trIn Hf) as (first & ev0 & E & Hfl).
  destruct (flatten_set_test teIn Hfe) as (firste & ev & Ee & Hfle).
  pose proof Hfl as (_ & _ & Hl1 & _ & Hd & _).
  pose proof Hfle as (_ & _ & Hl1e & Hl2e & Hde & _).
  unfold mkData4_3D. rewrite E, Ee. cbn [bind].
  set (tr := mkSet _ _ _ _ _ _ [] []). set (te := mkSet _ _ _ _ _ _ [] ev).
  assert (Hc : concat trIn <> []) by now apply concat_nonempty.
  assert (Hlabne : trLab <> []). { intros ->. cbn in Hlen. destruct (concat trIn); cbn in *; congruence. }
  destruct (initialize_sequential p rec tr te trLab teLab Hc Hlabne eq_refl) as [(_ & _ & _ & _ & _ & _ & _ & m & nl & E1)|[msg E1]]; auto.
  - rewrite E1. eexists; split; [reflexivity|]. split.
    + intros s v k x i Hs Hk Hidef.
      assert (Hkl : k < length v) by (apply nth_error_Some; congruence).
      assert (Hi : i < length trLab) by (rewrite Hlen, Hidef; now apply position_of_lt with (v := v)).
      pose proof (nth_error_concat trIn s v k Hs Hkl) as HC. rewrite <- Hidef in HC.
      destruct (Hd s v k Hs Hkl) as [H1 H2].
      unfold isFirstTraining, needToLearn. cbn. unfold lget. rewrite <- Hidef in H1, H2. rewrite H1.
      repeat split; auto.
      destruct (nth_error trLab i) as [y|] eqn:Ey; [|apply nth_error_None in Ey; lia].
      exists y; split; auto. apply exposes_visits. unfold visits. cbn. unfold lget.
      split; exists i; (split; [rewrite (nth_error_nth' _ 0) by (rewrite seq_length; lia); rewrite seq_nth by lia; reflexivity|]).
      * now rewrite HC, Hk.
      * now rewrite Ey.
    + intros s v k x i Hs Hk Hidef.
      assert (Hkl : k < length v) by (apply nth_error_Some; congruence).
      pose proof (nth_error_concat teIn s v k Hs Hkl) as HC. rewrite <- Hidef in HC.
      destruct (Hde s v k Hs Hkl) as [H1 H2].
      unfold isFirstTesting, needToEvaluate, getTestingData. cbn.
      unfold lget. rewrite <- Hidef in H1, H2. rewrite H1, H2.
      rewrite HC, Hk. auto.
  - exfalso. revert E1. unfold initialize.
    destruct (rev_cons_nonempty _ Hc) as (x & t & Hx). cbn [s_inputs tr te]. rewrite Hx.
    destruct (rev_cons_nonempty _ Hlabne) as (y & t' & ->).
    rewrite seq_ctor_nil. cbn [bind].
    destruct (data_isValid_cases p (TSeq []) (mkSet (length trLab) (length trIn) (concat trIn) trLab (seq 0 (length trLab)) first [] [])
       (mkSet (length teLab) (length teIn) (concat teIn) teLab [] firste [] ev)) as [[_ E2]|[Hn _]]; auto.
    cbn [s_nseq s_first s_train s_eval s_shuffled tr te]. rewrite E2. cbn [bind].
    unfold temporal_isValid. cbn [s_size s_first s_train s_eval isEmpty negb orb].
    rewrite Hl1, Hl1e, Hl2e, Hlen, Hlene, !Nat.eqb_refl. cbn. discriminate.
Qed.

(* ---- shuffle of sequential data changes nothing ---- *)
Lemma with_temporal_id (d : Data) t sh :
  t = d_temporal d -> sh = s_shuffled (d_train d) -> with_temporal d t (with_shuffled (d_train d) sh) = d.
Proof. intros -> ->. destruct d as [? ? [] ? ? ? ? ? ? ? ?]. reflexivity. Qed.

Lemma sequential_run_ops ops d d' :
  Forall fair_op ops -> d_temporal d = TSeq [] -> s_shuffled (d_train d) = seq 0 (s_size (d_train d)) ->
  run_ops ops d = Ok d' -> d' = d.
Proof.
  intros Hf. revert d. unfold run_ops. induction Hf as [|o ops Ho _ IH]; cbn; intros d Ht Hs H.
  - congruence.
  - apply bind_Ok_inv in H as (d1 & E & H).
    assert (d1 = d).
    { destruct o as [rng|]; cbn in E.
      - unfold shuffle in E. rewrite Ht in E.
        destruct (rshuffle_fair rng [] Ho) as (w & Ew & Hw). rewrite Ew in E. cbn in E.
        apply Permutation_sym, Permutation_nil in Hw. subst w. cbn in E. injection E as <-.
        apply with_temporal_id; auto.
      - unfold unshuffle in E. rewrite Ht in E. injection E as <-.
        apply with_temporal_id; auto. }
    subst d1. now apply IH.
Qed.

Lemma sequential_run_ops_ok ops d :
  Forall fair_op ops -> d_temporal d = TSeq [] -> s_shuffled (d_train d) = seq 0 (s_size (d_train d)) ->
  run_ops ops d = Ok d.
Proof.
  intros Hf Ht Hs. unfold run_ops. induction Hf as [|o ops Ho _ IH]; cbn; auto.
  assert (E : run_op d o = Ok d).
  { destruct o as [rng|]; cbn.
      - unfold shuffle. rewrite Ht.
        destruct (rshuffle_fair rng [] Ho) as (w & Ew & Hw). rewrite Ew. cbn.
        apply Permutation_sym, Permutation_nil in Hw. subst w. cbn.
        f_equal. apply with_temporal_id; auto.
      - unfold unshuffle. rewrite Ht.
        f_equal. apply with_temporal_id; auto. }
  rewrite E. cbn. exact IH.
Qed.

(* every accepted sequential data set has these composite contents *)
Lemma initialize_sequential_state p rec tr0 te0 a b c e d :
  initialize p sequential rec tr0 te0 a b c e = Ok d ->
  d_temporal d = TSeq [] /\ s_shuffled (d_train d) = seq 0 (s_size (d_train d)).
Proof.
  unfold initialize. destruct (rev a); try discriminate. destruct (rev b); try discriminate.
  rewrite seq_ctor_nil. cbn [bind]. intros H. apply bind_Ok_inv in H as (err & _ & H).
  destruct (negb (err =? 0)); try discriminate. injection H as <-. cbn. auto.
Qed.

Lemma sequential_shuffle_identity_l p ins labs rec d ops :
  mkData2_3D p ins labs sequential rec = Ok d -> Forall fair_op ops -> run_ops ops d = Ok d.
Proof.
  intros H Hf. unfold mkData2_3D in H. apply bind_Ok_inv in H as ([tr te] & _ & H).
  apply initialize_sequential_state in H as [H1 H2]. now apply sequential_run_ops_ok.
Qed.

Lemma sequential_shuffle_identity4_l p trIn trLab teIn teLab rec d ops :
  mkData4_3D p trIn trLab teIn teLab sequential rec = Ok d -> Forall fair_op ops -> run_ops ops d = Ok d.
Proof.
  intros H Hf. unfold mkData4_3D in H. apply bind_Ok_inv in H as (tr & _ & H). apply bind_Ok_inv in H as (te & _ & H).
  apply initialize_sequential_state in H as [H1 H2]. now apply sequential_run_ops_ok.
Qed.

(* ---- C08 : exact acceptance conditions ---- *)
Lemma mkData4_nontemporal_accepts_l p trIn trLab teIn teLab rec :
  trIn <> [] -> trLab <> [] ->
  (label_ok p trLab -> exists d, mkData4 p trIn trLab teIn teLab nonTemporal rec = Ok d) /\
  (~ label_ok p trLab -> exists msg, mkData4 p trIn trLab teIn teLab nonTemporal rec = Throw msg).
Proof.
  intros Hi Hl. unfold mkData4, initialize.
  destruct (rev_cons_nonempty _ Hi) as (x & t & ->). destruct (rev_cons_nonempty _ Hl) as (y & t' & ->).
  cbn [bind emptySet s_nseq s_first s_train s_eval s_shuffled s_size s_inputs s_labels].
  destruct (data_isValid_cases p TNon (mkSet (length trLab) 0 trIn trLab (seq 0 (length trLab)) [] [] [])
     (mkSet (length teLab) 0 teIn teLab [] [] [] [])) as [[H E]|[H E]]; auto; rewrite E; cbn; split; intros H'; try tauto; eauto.
Qed.

Lemma mkData_sequential_2D_rejected_l p trIn trLab teIn teLab rec :
  trIn <> [] -> trLab <> [] ->
  exists msg, mkData4 p trIn trLab teIn teLab sequential rec = Throw msg.
Proof.
  intros Hi Hl. unfold mkData4, initialize.
  destruct (rev_cons_nonempty _ Hi) as (x & t & ->). destruct (rev_cons_nonempty _ Hl) as (y & t' & ->).
  rewrite seq_ctor_nil.
  cbn [bind emptySet s_nseq s_first s_train s_eval s_shuffled s_size s_inputs s_labels].
  destruct (data_isValid_cases p (TSeq []) (mkSet (length trLab) 0 trIn trLab (seq 0 (length trLab)) [] [] [])
     (mkSet (length teLab) 0 teIn teLab [] [] [] [])) as [[H E]|[H E]]; auto; rewrite E; cbn [bind]; [|cbn; eauto].
  unfold temporal_isValid. cbn [s_size s_first s_train s_eval length].
  destruct trLab; [congruence|]. cbn. eauto.
Qed.
End P.
