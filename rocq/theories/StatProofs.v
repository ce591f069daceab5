(* Proofs about evaluation statistics. *)
From Verif Require Import Base Num NumOrder StatModel StatSpec.
Local Open Scope outcome_scope.

Section P.
Context {N : Num}.

Definition bump (k : kind) (e : F) (c : Cluster) : Cluster :=
  mkCluster (if kind_eqb k TP then incr (c_tp c) else c_tp c) (if kind_eqb k TN then incr (c_tn c) else c_tn c)
            (if kind_eqb k FP then incr (c_fp c) else c_fp c) (if kind_eqb k FN then incr (c_fn c) else c_fn c)
            (fadd (c_err c) e).

Lemma at_cons i x (l : list F) : at_ (S i) (x :: l) = at_ i l.
Proof. reflexivity. Qed.
Lemma at_ok ok i (l : list F) : Forall ok l -> i < length l -> ok (at_ i l).
Proof. intros H Hi. rewrite Forall_forall in H. apply H. now apply nth_In. Qed.
Lemma map_seq_S {A} (f : nat -> A) n : map f (seq 1 n) = map (fun i => f (S i)) (seq 0 n).
Proof. now rewrite <- seq_shift, map_map. Qed.
Lemma forallb_seq_S f n : forallb f (seq 0 (S n)) = f 0 && forallb (fun i => f (S i)) (seq 0 n).
Proof.
  cbn [seq forallb]. f_equal. rewrite <- seq_shift. generalize (seq 0 n).
  induction l as [|a l IH]; cbn; auto. now rewrite IH.
Qed.

Lemma cells_spec (ok : F -> Prop) (f : Cluster -> F -> F -> bool -> Cluster * bool) (K : F -> F -> kind) (W : F -> F -> bool) :
  (forall c o d w, ok o -> ok d -> f c o d w = (bump (K o d) (fabs (fsub d o)) c, w && W o d)) ->
  forall cl os ds w, length os = length cl -> length ds = length cl -> Forall ok os -> Forall ok ds ->
  cells f cl os ds w =
  Ok (map (fun i => bump (K (at_ i os) (at_ i ds)) (fabs (fsub (at_ i ds) (at_ i os))) (nth i cl zeroCluster)) (seq 0 (length cl)),
      w && forallb (fun i => W (at_ i os) (at_ i ds)) (seq 0 (length cl))).
Proof.
  intros Hf. induction cl as [|c cl IH]; intros os ds w H1 H2 H3 H4; cbn [length].
  - cbn. now rewrite andb_true_r.
  - destruct os as [|o os], ds as [|d ds]; try discriminate. injection H1 as H1. injection H2 as H2.
    inversion_clear H3. inversion_clear H4. cbn [cells]. rewrite Hf by auto. rewrite IH by auto. cbn [bind].
    rewrite forallb_seq_S, andb_assoc. cbn [seq map]. rewrite map_seq_S. reflexivity.
Qed.

Lemma regCell_spec ok (OL : order_laws N ok) p c o d w : ok o -> ok d ->
  regCell p c o d w =
  (bump (if fltb (fadd d p) o then FP else if fltb o (fsub d p) then FN else TN) (fabs (fsub d o)) c,
   w && (negb (fltb (fadd d p) o) && negb (fltb o (fsub d p)))).
Proof.
  intros Ho Hd. unfold regCell, fgtb, fgeb.
  destruct (fltb (fadd d p) o); [now rewrite andb_false_r|].
  destruct (fltb o (fsub d p)); [now rewrite andb_false_r|].
  rewrite (ol_le _ _ OL d o Hd Ho), (ol_le _ _ OL o d Ho Hd). rewrite andb_true_r.
  destruct (fltb o d) eqn:E; cbn; [|reflexivity].
  now rewrite (lt_asym OL o d Ho Hd E).
Qed.
Lemma multiCell_spec ok (OL : order_laws N ok) s c o d w : ok o -> ok d -> ok s ->
  multiCell s c o d w =
  (bump (match fltb s o, fltb s d with true, true => TP | false, false => TN | true, false => FP | false, true => FN end)
        (fabs (fsub d o)) c, w && Bool.eqb (fltb s o) (fltb s d)).
Proof.
  intros Ho Hd Hs. unfold multiCell, fgtb.
  rewrite (ol_le _ _ OL o s Ho Hs), (ol_le _ _ OL d s Hd Hs).
  destruct (fltb s o), (fltb s d); cbn; rewrite ?andb_true_r, ?andb_false_r; reflexivity.
Qed.

Lemma classCells_spec lab sep : forall cl os i m, length os = length cl ->
  classCells (Z.of_nat lab) sep cl os i m =
  Ok (map (fun j => bump (if Nat.eqb (i + j) lab then (if fltb sep (at_ j os) then TP else FN) else (if fltb sep (at_ j os) then FP else TN))
                        (fabs (fsub (if Nat.eqb (i + j) lab then fone else fzero) (at_ j os))) (nth j cl zeroCluster)) (seq 0 (length cl)),
      argmaxFrom os i m).
Proof.
  induction cl as [|c cl IH]; intros [|o os] i m H; try discriminate; [reflexivity|].
  injection H as H. cbn [classCells length seq map argmaxFrom]. rewrite IH by auto. cbn [bind].
  rewrite map_seq_S. f_equal. f_equal. f_equal.
  - unfold classCell, fgtb. rewrite Nat.add_0_r. cbn [nth]. unfold at_; cbn [nth].
    destruct (Nat.eqb_spec i lab) as [->|Hn].
    + rewrite Z.eqb_refl. destruct (fltb sep o); reflexivity.
    + replace (Z.eqb (Z.of_nat i) (Z.of_nat lab)) with false by (symmetry; apply Z.eqb_neq; lia).
      destruct (fltb sep o); reflexivity.
  - apply map_ext. intros a. replace (i + S a) with (S i + a) by lia. reflexivity.
Qed.

(* the running maximum *)
Lemma argmax_spec ok (OL : order_laws N ok) : forall os i v k, Forall ok os -> ok v ->
  (argmaxFrom os i (v, k) = (v, k) /\ forall j, j < length os -> fltb v (at_ j os) = false) \/
  (exists j, j < length os /\ argmaxFrom os i (v, k) = (at_ j os, Z.of_nat (i + j)) /\ fltb v (at_ j os) = true /\
     (forall j', j' < j -> fltb (at_ j' os) (at_ j os) = true) /\
     (forall j', j' < length os -> fltb (at_ j os) (at_ j' os) = false)).
Proof.
  induction os as [|o os IH]; intros i v k Hos Hv.
  - left. split; [reflexivity|]. cbn. lia.
  - inversion_clear Hos as [|? ? Ho Hos']. cbn [argmaxFrom]. unfold maxStep. cbn [fst].
    destruct (fltb v o) eqn:E.
    + destruct (IH (S i) o (Z.of_nat i) Hos' Ho) as [[Hr Hn]|(j & Hj & Hr & Hl & Hb & Ha)].
      * right. exists 0. cbn [length]. split; [lia|]. rewrite Hr, Nat.add_0_r. unfold at_ at 1 2. cbn [nth].
        split; [reflexivity|]. split; [exact E|]. split; [lia|].
        intros [|j'] Hj'; [unfold at_; cbn; now apply (ol_irrefl _ _ OL)|]. rewrite at_cons. apply Hn. cbn in Hj'. lia.
      * right. exists (S j). cbn [length]. split; [lia|]. rewrite Hr, at_cons. replace (i + S j) with (S i + j) by lia.
        assert (ok (at_ j os)) by now apply at_ok.
        split; [reflexivity|]. split; [now apply (ol_trans _ _ OL v o (at_ j os))|]. split.
        -- intros [|j'] Hj'; [exact Hl|]. rewrite at_cons. apply Hb. lia.
        -- intros [|j'] Hj'; [unfold at_ at 2; cbn; now apply (lt_asym OL)|]. rewrite at_cons. apply Ha. lia.
    + destruct (IH (S i) v k Hos' Hv) as [[Hr Hn]|(j & Hj & Hr & Hl & Hb & Ha)].
      * left. split; [exact Hr|]. intros [|j] Hj; [exact E|]. rewrite at_cons. apply Hn. cbn in Hj. lia.
      * right. exists (S j). cbn [length]. split; [lia|]. rewrite Hr, at_cons. replace (i + S j) with (S i + j) by lia.
        assert (ok (at_ j os)) by now apply at_ok.
        split; [reflexivity|]. split; [exact Hl|]. split.
        -- intros [|j'] Hj'; [unfold at_ at 1; cbn; now apply (nlt_lt_trans OL o v (at_ j os))|]. rewrite at_cons. apply Hb. lia.
        -- intros [|j'] Hj'; [unfold at_ at 2; cbn|rewrite at_cons; apply Ha; lia].
           apply (lt_asym OL); auto. now apply (nlt_lt_trans OL o v (at_ j os)).
Qed.

Lemma class_correct ok (OL : order_laws N ok) os lab n : length os = n -> Forall ok os ->
  Z.eqb (clusterOf os) (Z.of_nat lab) = correct n (Classification os lab fzero).
Proof.
  intros Hn Hos. unfold clusterOf, correct.
  assert (H2 : ok (fofZ (-2))) by (apply (ol_lit _ _ OL); lia).
  destruct (argmax_spec ok OL os 0 (fofZ (-2)) (-1) Hos H2) as [[-> Hb]|(j & Hj & -> & Hl & Hb & Ha)]; cbn [snd].
  - replace (Z.eqb (-1) (Z.of_nat lab)) with false by (symmetry; apply Z.eqb_neq; lia).
    destruct (Nat.ltb_spec lab n) as [Hlt|]; [|reflexivity]. rewrite Hb by lia. reflexivity.
  - rewrite Nat.add_0_l. destruct (Z.eqb_spec (Z.of_nat j) (Z.of_nat lab)) as [E|E].
    + apply Nat2Z.inj in E. subst j. destruct (Nat.ltb_spec lab n); [|lia]. rewrite Hl. cbn [andb]. symmetry.
      apply forallb_forall. intros i Hi. apply in_seq in Hi. destruct (Nat.ltb_spec i lab); [now apply Hb|].
      rewrite Ha by lia. reflexivity.
    + symmetry. destruct (Nat.ltb_spec lab n) as [Hlt|]; [|reflexivity]. cbn [andb].
      apply andb_false_iff. right. assert (Hne : j <> lab) by lia.
      destruct (forallb _ (seq 0 n)) eqn:Ef; [|reflexivity]. exfalso.
      rewrite forallb_forall in Ef. specialize (Ef j). rewrite in_seq in Ef. specialize (Ef ltac:(lia)).
      assert (ok (at_ j os)) by now apply at_ok. assert (ok (at_ lab os)) by (apply at_ok; [auto|lia]).
      destruct (Nat.ltb_spec j lab) as [Hjl|Hjl].
      * rewrite Ha in Ef by lia. discriminate.
      * rewrite Hb in Ef by lia. discriminate.
Qed.

(* ---- exact contents of the counters ---- *)
Definition clusterFor (js : list judged) (i : nat) : Cluster :=
  mkCluster (fofnat (count (fun j => kind_eqb (kind_of i j) TP) js)) (fofnat (count (fun j => kind_eqb (kind_of i j) TN) js))
            (fofnat (count (fun j => kind_eqb (kind_of i j) FP) js)) (fofnat (count (fun j => kind_eqb (kind_of i j) FN) js))
            (fsum (map (error_of i) js)).

Lemma count_app {A} (p : A -> bool) l1 l2 : count p (l1 ++ l2) = count p l1 + count p l2.
Proof. unfold count. now rewrite filter_app, app_length. Qed.
Lemma count_le {A} (p : A -> bool) l : count p l <= length l.
Proof. unfold count. induction l as [|a l IH]; cbn; auto. destruct (p a); cbn; lia. Qed.
Lemma count_one {A} (p : A -> bool) a : count p [a] = if p a then 1 else 0.
Proof. unfold count. cbn. destruct (p a); reflexivity. Qed.

Lemma incr_count {A} B (HB : counts_exactly_below B) (p : A -> bool) l a : S (length l) <= B ->
  (if p a then incr (fofnat (count p l)) else fofnat (count p l)) = fofnat (count p (l ++ [a])).
Proof.
  intros H. rewrite count_app, count_one. unfold incr. destruct (p a).
  - rewrite Nat.add_1_r. apply HB. pose proof (count_le p l). lia.
  - now rewrite Nat.add_0_r.
Qed.

Lemma bump_for B (HB : counts_exactly_below B) js j i : S (length js) <= B ->
  bump (kind_of i j) (error_of i j) (clusterFor js i) = clusterFor (js ++ [j]) i.
Proof.
  intros H. unfold bump, clusterFor. cbn [c_tp c_tn c_fp c_fn c_err].
  rewrite <- !(incr_count B HB _ js j H). f_equal.
  unfold fsum. rewrite map_app, fold_left_app. reflexivity.
Qed.

Lemma nth_map_seq {A} (f : nat -> A) n i d : i < n -> nth i (map f (seq 0 n)) d = f i.
Proof.
  intros H. rewrite nth_indep with (d' := f (nth i (seq 0 n) 0)) by (now rewrite map_length, seq_length).
  rewrite map_nth, seq_nth by auto. now rewrite Nat.add_0_l.
Qed.

Lemma judge_spec ok (OL : order_laws N ok) s n j : length (st_clusters s) = n -> judged_ok ok n j ->
  judge s j = Ok (countSample s (map (fun i => bump (kind_of i j) (error_of i j) (nth i (st_clusters s) zeroCluster)) (seq 0 n)) (correct n j)).
Proof.
  intros Hn Hj. destruct j as [os ds p|os ds sep|os lab sep]; cbn [judge judged_ok] in *.
  - destruct Hj as (H1 & H2 & H3 & H4). unfold evaluateOnceForRegression.
    rewrite (cells_spec ok _ (fun o d => if fltb (fadd d p) o then FP else if fltb o (fsub d p) then FN else TN)
       (fun o d => negb (fltb (fadd d p) o) && negb (fltb o (fsub d p)))); try (intros; auto; congruence).
    + rewrite Hn. reflexivity.
    + intros. now apply regCell_spec with (ok := ok).
  - destruct Hj as (H1 & H2 & H3 & H4 & H5). unfold evaluateOnceForMultipleClassification.
    rewrite (cells_spec ok _ (fun o d => match fltb sep o, fltb sep d with true, true => TP | false, false => TN | true, false => FP | false, true => FN end)
       (fun o d => Bool.eqb (fltb sep o) (fltb sep d))); try (intros; auto; congruence).
    + rewrite Hn. reflexivity.
    + intros. now apply multiCell_spec with (ok := ok).
  - destruct Hj as (H1 & H2). unfold evaluateOnceForClassification.
    rewrite classCells_spec by congruence. cbn [bind]. rewrite Hn.
    change (snd (argmaxFrom os 0 (fofZ (-2), (-1)%Z))) with (clusterOf os).
    rewrite (class_correct ok OL os lab n H1 H2). reflexivity.
Qed.

Definition counted (n : nat) (js : list judged) (s0 s : Stats) : Prop :=
  s = with_counters s0 (map (clusterFor js) (seq 0 n)) (fofnat (count (correct n) js))
        (fofnat (count (fun j => negb (correct n j)) js)).

Lemma count_test_spec ok (OL : order_laws N ok) B (HB : counts_exactly_below B) n js s :
  length (st_clusters s) = n -> Forall (judged_ok ok n) js -> length js <= B ->
  exists s', count_test s js = Ok s' /\ counted n js s s'.
Proof.
  intros Hn. unfold count_test. induction js as [|j js IH] using rev_ind; intros Hok HB'.
  - eexists. split; [reflexivity|]. unfold counted, startTesting. f_equal.
    rewrite <- Hn. generalize (st_clusters s). intros l. clear.
    assert (forall k, map (clusterFor []) (seq k (length l)) = map (fun _ : Cluster => zeroCluster) l) as H; [|now rewrite H].
    induction l as [|c l IH]; intros k; cbn; auto. f_equal. apply IH.
  - apply Forall_app in Hok as [Hok Hj]. inversion_clear Hj as [|? ? Hj' _].
    rewrite app_length in HB'; cbn [length] in HB'.
    destruct (IH Hok ltac:(lia)) as (s' & E & Hc). rewrite ofold_app, E. cbn [bind ofold].
    red in Hc. subst s'.
    rewrite (judge_spec ok OL _ n) by (auto; cbn; now rewrite map_length, seq_length). cbn [bind].
    eexists. split; [reflexivity|]. unfold counted, countSample. cbn [st_clusters with_counters st_well st_mis].
    assert (E2 : map (fun i => bump (kind_of i j) (error_of i j) (nth i (map (clusterFor js) (seq 0 n)) zeroCluster)) (seq 0 n)
                 = map (clusterFor (js ++ [j])) (seq 0 n)).
    { apply map_ext_in. intros i Hi. apply in_seq in Hi. rewrite nth_map_seq by lia. apply (bump_for B HB). lia. }
    rewrite E2. rewrite !count_app, !count_one.
    destruct (correct n j); cbn [negb]; rewrite ?Nat.add_1_r, ?Nat.add_0_r; unfold incr;
      rewrite HB by (match goal with |- count ?p ?l < _ => pose proof (count_le p l); lia end); reflexivity.
Qed.

Lemma count_partition n (js : list judged) : count (correct n) js + count (fun j => negb (correct n j)) js = length js.
Proof. unfold count. induction js as [|j js IH]; cbn; auto. destruct (correct n j); cbn; lia. Qed.
Lemma kind_partition i (js : list judged) :
  count (fun j => kind_eqb (kind_of i j) TP) js + count (fun j => kind_eqb (kind_of i j) TN) js
  + count (fun j => kind_eqb (kind_of i j) FP) js + count (fun j => kind_eqb (kind_of i j) FN) js = length js.
Proof. unfold count. induction js as [|j js IH]; cbn; auto. destruct (kind_of i j); cbn; lia. Qed.

End P.
