(* C79: the statistics of a test do not depend on the order of its samples. *)
From Coq Require Import Permutation.
From Verif Require Import Base Num NumOrder StatModel StatSpec AlikeProofs TestOrderSpec.
Local Open Scope outcome_scope.

Section P.
Context {N : Num}.
(* ---------- what a sample does to a counter: one of the four grows or none, and an error is added ---------- *)
Definition act (k : option kind) (e : F) (c : Cluster) : Cluster :=
  addErr (match k with Some TP => incTP c | Some TN => incTN c | Some FP => incFP c | Some FN => incFN c | None => c end) e.
Lemma reg_act p o d : exists k e w0, forall c well, regCell p c o d well = (act k e c, well && w0).
Proof.
  unfold regCell. destruct (fgtb o (fadd d p)); [exists (Some FP), (fabs (fsub d o)), false; intros; now rewrite andb_false_r|].
  destruct (fltb o (fsub d p)); [exists (Some FN), (fabs (fsub d o)), false; intros; now rewrite andb_false_r|].
  destruct (fgeb o d); [exists (Some TN), (fabs (fsub d o)), true; intros; now rewrite andb_true_r|].
  destruct (fleb o d); [exists (Some TN), (fabs (fsub d o)), true; intros; now rewrite andb_true_r|]. exists None, (fabs (fsub d o)), true; intros; now rewrite andb_true_r.
Qed.
Lemma multi_act p o d : exists k e w0, forall c well, multiCell p c o d well = (act k e c, well && w0).
Proof.
  unfold multiCell. destruct (fgtb o p && fgtb d p); [exists (Some TP), (fabs (fsub d o)), true; intros; now rewrite andb_true_r|].
  destruct (fleb o p && fleb d p); [exists (Some TN), (fabs (fsub d o)), true; intros; now rewrite andb_true_r|].
  destruct (fgtb o p && fleb d p); [exists (Some FP), (fabs (fsub d o)), false; intros; now rewrite andb_false_r|].
  destruct (fleb o p && fgtb d p); [exists (Some FN), (fabs (fsub d o)), false; intros; now rewrite andb_false_r|]. exists None, (fabs (fsub d o)), true; intros; now rewrite andb_true_r.
Qed.
Lemma class_act n sep o i : exists k e, forall c, classCell n sep c o i = act k e c.
Proof.
  unfold classCell. destruct (Z.of_nat i =? n)%Z, (fgtb o sep); [exists (Some TP), (fabs (fsub fone o))|exists (Some FN), (fabs (fsub fone o))|exists (Some FP), (fabs (fsub fzero o))|exists (Some TN), (fabs (fsub fzero o))]; intros []; reflexivity.
Qed.
Fixpoint acts (l : list (option kind * F)) (cl : list Cluster) : list Cluster :=
  match l, cl with (k, e) :: l, c :: cl => act k e c :: acts l cl | _, _ => [] end.
Lemma acts_length l : forall cl, List.length l = List.length cl -> List.length (acts l cl) = List.length cl.
Proof. induction l as [|[k e] l IH]; intros [|c cl] H; try discriminate; [reflexivity|]. cbn. f_equal. apply IH. now injection H. Qed.
Lemma cells_acts f : (forall o d, exists k e w0, forall c well, f c o d well = (act k e c, well && w0)) -> forall n os ds,
  (exists l w0, List.length l = n /\ forall cl well, List.length cl = n -> StatModel.cells f cl os ds well = Ok (acts l cl, well && w0)) \/ (forall cl well, List.length cl = n -> StatModel.cells f cl os ds well = UB).
Proof.
  intros Hf. induction n as [|n IH]; intros os ds.
  - left. exists [], true. split; [reflexivity|]. intros [|c cl] well H; [|discriminate]. cbn. now rewrite andb_true_r.
  - destruct os as [|o os]; [right; intros [|c cl] well H; [discriminate|reflexivity]|]. destruct ds as [|d ds]; [right; intros [|c cl] well H; [discriminate|reflexivity]|].
    destruct (Hf o d) as (k & e & w1 & E). destruct (IH os ds) as [(l & w2 & Hl & G)|G].
    + left. exists ((k, e) :: l), (w1 && w2). split; [cbn; congruence|]. intros [|c cl] well H; [discriminate|]. injection H as H. cbn [StatModel.cells acts]. rewrite E, (G cl (well && w1) H). cbn. now rewrite andb_assoc.
    + right. intros [|c cl] well H; [discriminate|]. injection H as H. cbn [StatModel.cells]. now rewrite E, (G cl (well && w1) H).
Qed.
Lemma class_acts lab sep : forall n os i m,
  (exists l m', List.length l = n /\ forall cl, List.length cl = n -> classCells lab sep cl os i m = Ok (acts l cl, m')) \/ (forall cl, List.length cl = n -> classCells lab sep cl os i m = UB).
Proof.
  induction n as [|n IH]; intros os i m.
  - left. exists [], m. split; [reflexivity|]. intros [|c cl] H; [reflexivity|discriminate].
  - destruct os as [|o os]; [right; intros [|c cl] H; [discriminate|reflexivity]|]. destruct (class_act lab sep o i) as (k & e & E). destruct (IH os (S i) (maxStep m o i)) as [(l & m' & Hl & G)|G].
    + left. exists ((k, e) :: l), m'. split; [cbn; congruence|]. intros [|c cl] H; [discriminate|]. injection H as H. cbn [classCells acts]. now rewrite (G cl H), E.
    + right. intros [|c cl] H; [discriminate|]. injection H as H. cbn [classCells]. now rewrite (G cl H).
Qed.
Lemma judge_acts n j : (exists l w, List.length l = n /\ forall s, List.length (st_clusters s) = n -> judge s j = Ok (countSample s (acts l (st_clusters s)) w)) \/ (forall s, List.length (st_clusters s) = n -> judge s j = UB).
Proof.
  destruct j as [os ds p|os ds p|os lab p]; cbn [judge]; unfold evaluateOnceForRegression, evaluateOnceForMultipleClassification, evaluateOnceForClassification.
  - destruct (cells_acts _ (reg_act p) n os ds) as [(l & w & Hl & G)|G]; [left; exists l, w; split; [exact Hl|]|right]; intros s H; rewrite G by exact H; reflexivity.
  - destruct (cells_acts _ (multi_act p) n os ds) as [(l & w & Hl & G)|G]; [left; exists l, w; split; [exact Hl|]|right]; intros s H; rewrite G by exact H; reflexivity.
  - destruct (class_acts (Z.of_nat lab) p n os 0 (fofZ (-2), (-1)%Z)) as [(l & m & Hl & G)|G]; [left; exists l, (snd m =? Z.of_nat lab)%Z; split; [exact Hl|]|right]; intros s H; rewrite G by exact H; reflexivity.
Qed.
(* ---------- statistics that agree, the errors included if [exact] ---------- *)
Variable exact : Prop.
Hypothesis swaps : exact -> sums_commute.
Definition cagree (a b : Cluster) : Prop := counts_of a = counts_of b /\ (exact -> c_err a = c_err b).
Lemma cagree_act k e a b : cagree a b -> cagree (act k e a) (act k e b).
Proof.
  destruct a as [a1 a2 a3 a4 a5], b as [b1 b2 b3 b4 b5]. intros (H & E). unfold counts_of in H. cbn in H, E. injection H as -> -> -> ->. split; [destruct k as [[]|]; reflexivity|]. intros X. specialize (E X). destruct k as [[]|]; cbn; now rewrite E.
Qed.
Lemma cagree_swap k1 e1 k2 e2 c : cagree (act k1 e1 (act k2 e2 c)) (act k2 e2 (act k1 e1 c)).
Proof.
  split; [destruct k1 as [[]|], k2 as [[]|]; reflexivity|]. intros X. assert (S := swaps X (c_err c) e2 e1). destruct k1 as [[]|], k2 as [[]|]; exact S.
Qed.
Lemma cagree_refl a : cagree a a. Proof. split; auto. Qed.
Lemma cagree_trans a b c : cagree a b -> cagree b c -> cagree a c.
Proof. intros (H & E) (H' & E'). split; [congruence|]. intros X. rewrite E, E'; auto. Qed.
Lemma acts_agree l : forall a b, Forall2 cagree a b -> Forall2 cagree (acts l a) (acts l b).
Proof. induction l as [|[k e] l IH]; intros a b H; [constructor|]. destruct H as [|x y a b H1 H2]; [constructor|]. constructor; [now apply cagree_act|auto]. Qed.
Lemma acts_swap l1 : forall l2 cl, List.length l1 = List.length cl -> List.length l2 = List.length cl -> Forall2 cagree (acts l1 (acts l2 cl)) (acts l2 (acts l1 cl)).
Proof.
  induction l1 as [|[k1 e1] l1 IH]; intros l2 cl H1 H2; destruct cl as [|c cl]; try discriminate; destruct l2 as [|[k2 e2] l2]; try discriminate; [constructor|]. cbn. constructor; [apply cagree_swap|]. apply IH; [now injection H1|now injection H2].
Qed.
(* the members that a test leaves alone while it counts: two statistics that begin alike *)
Definition begins (a b : Stats) : Prop :=
  st_rateMax a = st_rateMax b /\ st_wrateMax a = st_wrateMax b /\ st_f1Max a = st_f1Max b /\ (exact -> st_maeMin a = st_maeMin b /\ st_rmseMin a = st_rmseMin b).
Definition sagree (a b : Stats) : Prop := Forall2 cagree (st_clusters a) (st_clusters b) /\ st_well a = st_well b /\ st_mis a = st_mis b /\ begins a b.
Lemma sagree_refl a : sagree a a.
Proof. split; [|repeat split]. induction (st_clusters a); constructor; auto. apply cagree_refl. Qed.
Lemma sagree_trans a b c : sagree a b -> sagree b c -> sagree a c.
Proof.
  intros (A1 & A2 & A3 & A4 & A5 & A6 & A7) (B1 & B2 & B3 & B4 & B5 & B6 & B7). split; [|split; [congruence|split; [congruence|split; [congruence|split; [congruence|split; [congruence|]]]]]; intros X; destruct (A7 X), (B7 X); split; congruence].
  clear - A1 B1. revert B1. generalize (st_clusters c). induction A1 as [|x y l l' H _ IH]; intros z Hz; [exact Hz|]. inversion Hz as [|? z0 ? lz H2 H3]; subst. constructor; [eapply cagree_trans; eassumption|auto].
Qed.
Lemma F2_length {A B} (R : A -> B -> Prop) l l' : Forall2 R l l' -> List.length l = List.length l'.
Proof. induction 1; cbn; congruence. Qed.
Lemma count_agree a b cl cl' w : sagree a b -> Forall2 cagree cl cl' -> sagree (countSample a cl w) (countSample b cl' w).
Proof.
  intros (_ & A2 & A3 & A4 & A5 & A6 & A7) H. unfold countSample. destruct w; (split; [exact H|]; split; [cbn; congruence|split; [cbn; congruence|split; [exact A4|split; [exact A5|split; [exact A6|exact A7]]]]]).
Qed.
Lemma judge_agree a b j : sagree a b -> orel sagree (judge a j) (judge b j).
Proof.
  intros H. pose proof H as (H1 & _). destruct (judge_acts (List.length (st_clusters a)) j) as [(l & w & Hl & G)|G].
  - rewrite (G a eq_refl), (G b ltac:(symmetry; exact (F2_length _ _ _ H1))). apply count_agree; [exact H|]. now apply acts_agree.
  - rewrite (G a eq_refl), (G b ltac:(symmetry; exact (F2_length _ _ _ H1))). exact I.
Qed.
Lemma countSample_clusters s cl w : st_clusters (countSample s cl w) = cl. Proof. destruct w; reflexivity. Qed.
Lemma fold_agree js : forall a b, sagree a b -> orel sagree (ofold judge js a) (ofold judge js b).
Proof. induction js as [|j js IH]; intros a b H; [exact H|]. cbn [ofold]. eapply orel_bind; [now apply judge_agree|]. exact IH. Qed.
Lemma swap_agree j1 j2 a b : sagree a b -> orel sagree (let* x := judge a j1 in judge x j2) (let* x := judge b j2 in judge x j1).
Proof.
  intros H. pose proof H as (H1 & _). assert (L := F2_length _ _ _ H1). destruct (judge_acts (List.length (st_clusters a)) j1) as [(l1 & w1 & Hl1 & G1)|G1]; destruct (judge_acts (List.length (st_clusters a)) j2) as [(l2 & w2 & Hl2 & G2)|G2].
  - rewrite (G1 a eq_refl), (G2 b (eq_sym L)). cbn [bind].
    rewrite (G2 (countSample a _ _)) by (rewrite countSample_clusters; apply acts_length; exact Hl1). rewrite (G1 (countSample b _ _)) by (rewrite countSample_clusters, acts_length; congruence).
    rewrite !countSample_clusters. assert (X : Forall2 cagree (acts l2 (acts l1 (st_clusters a))) (acts l1 (acts l2 (st_clusters b)))).
    { assert (Y := acts_swap l2 l1 (st_clusters a) Hl2 Hl1). assert (Z := acts_agree l1 _ _ (acts_agree l2 _ _ H1)). clear - Y Z. revert Z. generalize (acts l1 (acts l2 (st_clusters b))). induction Y as [|x y l l' E _ IH]; intros z Hz; [exact Hz|]. inversion Hz as [|? z0 ? lz E2 E3]; subst. constructor; [eapply cagree_trans; eassumption|auto]. }
    destruct H as (_ & A2 & A3 & A4 & A5 & A6 & A7). unfold countSample. destruct w1, w2; (split; [exact X|]; split; [cbn; congruence|split; [cbn; congruence|split; [exact A4|split; [exact A5|split; [exact A6|exact A7]]]]]).
  - rewrite (G1 a eq_refl), (G2 b (eq_sym L)). cbn [bind]. rewrite (G2 (countSample a _ _)) by (rewrite countSample_clusters; apply acts_length; exact Hl1). exact I.
  - rewrite (G1 a eq_refl), (G2 b (eq_sym L)). cbn [bind]. rewrite (G1 (countSample b _ _)) by (rewrite countSample_clusters, acts_length; congruence). exact I.
  - rewrite (G1 a eq_refl), (G2 b (eq_sym L)). exact I.
Qed.
Lemma perm_agree js js' : Permutation js js' -> forall a b, sagree a b -> orel sagree (ofold judge js a) (ofold judge js' b).
Proof.
  induction 1 as [|j js js' _ IH|j1 j2 js|js1 js2 js3 _ IH1 _ IH2]; intros a b H.
  - exact H.
  - cbn [ofold]. eapply orel_bind; [now apply judge_agree|]. exact IH.
  - cbn [ofold]. assert (S := swap_agree j2 j1 a b H).
    assert (E : forall s x y, (let* s1 := judge s x in let* s2 := judge s1 y in ofold judge js s2) = (let* z := (let* s1 := judge s x in judge s1 y) in ofold judge js z)) by (intros s x y; destruct (judge s x); reflexivity).
    rewrite !E. eapply orel_bind; [exact S|]. apply fold_agree.
  - assert (X := IH1 a a (sagree_refl a)). assert (Y := IH2 a b H). destruct (ofold judge js1 a), (ofold judge js2 a), (ofold judge js3 b); cbn in X, Y; try contradiction; try congruence; [|exact I]. cbn. eapply sagree_trans; eassumption.
Qed.
Lemma start_agree a b : List.length (st_clusters a) = List.length (st_clusters b) -> begins a b -> sagree (startTesting a) (startTesting b).
Proof.
  intros H B. split; [|split; [reflexivity|split; [reflexivity|exact B]]]. cbn. revert H. generalize (st_clusters b). induction (st_clusters a) as [|x l IH]; intros [|y l'] H; try discriminate; constructor; [apply cagree_refl|]. apply IH. now injection H.
Qed.
Lemma fold_clusters {A} (f : A -> Cluster -> A) : (forall r x y, counts_of x = counts_of y -> f r x = f r y) -> forall l l', Forall2 cagree l l' -> forall r, fold_left f l r = fold_left f l' r.
Proof. intros Hf l l' H. induction H as [|x y l l' (H & _) _ IH]; intros r; [reflexivity|]. cbn. now rewrite (Hf r x y H), IH. Qed.
Lemma fold_errors {A} (f : A -> Cluster -> A) : exact -> (forall r x y, c_err x = c_err y -> f r x = f r y) -> forall l l', Forall2 cagree l l' -> forall r, fold_left f l r = fold_left f l' r.
Proof. intros X Hf l l' H. induction H as [|x y l l' (_ & H) _ IH]; intros r; [reflexivity|]. cbn. now rewrite (Hf r x y (H X)), IH. Qed.
Lemma agree_map l l' : Forall2 cagree l l' -> map counts_of l = map counts_of l'.
Proof. induction 1 as [|x y l l' (H & _) _ IH]; cbn; congruence. Qed.
Lemma agree_eq l l' : exact -> Forall2 cagree l l' -> l = l'.
Proof. intros X. induction 1 as [|[a b c d e] [a' b' c' d' e'] l l' (H & E) _ IH]; [reflexivity|]. unfold counts_of in H. cbn in *. specialize (E X). congruence. Qed.
Lemma stop_agree a b : sagree a b -> same_but_errors (stopTesting a) (stopTesting b) /\ (exact -> stopTesting a = stopTesting b).
Proof.
  intros (H & H2 & H3 & H4 & H5 & H6 & H7). assert (L := F2_length _ _ _ H).
  assert (R1 : computeGlobalClusteringRate a = computeGlobalClusteringRate b) by (unfold computeGlobalClusteringRate; congruence).
  assert (R2 : computeWeightedClusteringRate a = computeWeightedClusteringRate b).
  { unfold computeWeightedClusteringRate. rewrite L. f_equal. apply fold_clusters; [|exact H]. unfold counts_of. intros r x y E. injection E as -> _ _ ->. reflexivity. }
  assert (R3 : computeF1Score a = computeF1Score b).
  { unfold computeF1Score. rewrite L. f_equal. f_equal. apply fold_clusters; [|exact H]. unfold counts_of. intros r x y E. injection E as -> _ -> ->. reflexivity. }
  split.
  - unfold same_but_errors, stopTesting. cbn. rewrite R1, R2, R3, H4, H5, H6. repeat split; auto. now apply agree_map.
  - intros X. destruct (H7 X) as (M1 & M2). unfold stopTesting.
    assert (R4 : computeMeanAbsoluteError a = computeMeanAbsoluteError b). { unfold computeMeanAbsoluteError. rewrite H2, H3. f_equal. apply fold_errors; [exact X| |exact H]. intros r x y ->. reflexivity. }
    assert (R5 : computeRootMeanSquaredError a = computeRootMeanSquaredError b). { unfold computeRootMeanSquaredError. rewrite H2, H3. f_equal. f_equal. apply fold_errors; [exact X| |exact H]. intros r x y ->. reflexivity. }
    rewrite R1, R2, R3, R4, R5, H2, H3, H4, H5, H6, M1, M2, (agree_eq _ _ X H). reflexivity.
Qed.
Lemma test_agree js js' a b : Permutation js js' -> List.length (st_clusters a) = List.length (st_clusters b) -> begins a b ->
  orel (fun x y => same_but_errors x y /\ (exact -> x = y)) (test a js) (test b js').
Proof.
  intros HP HL HB. unfold test, count_test. eapply orel_bind; [apply (perm_agree _ _ HP); now apply start_agree|]. intros x y H. exact (stop_agree x y H).
Qed.
End P.
