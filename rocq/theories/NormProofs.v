From Coq Require Import Reals Lra Permutation.
From Verif Require Import Base Num DataModel DataSpec DataProofs SeqProofs.
Local Open Scope nat_scope.
Local Open Scope outcome_scope.
Local Open Scope list_scope.

Section G.
Context {N : Num}.
Definition column (rows : list (list F)) (j : nat) : list F := map (fun r => nth j r fzero) rows.
Definition col_minmax (rows : list (list F)) (j : nat) : F * F :=
  match column rows j with [] => (fzero, fzero) | x0 :: rest => fold_left minmax_step rest (x0, x0) end.
Definition col_map (lo hi : F) (rows : list (list F)) (j : nat) : F -> F :=
  let '(mi, ma) := col_minmax rows j in rescale mi (fsub ma mi) lo hi.

Lemma normalize_rows_ok w j g rows : rect w rows -> j < w ->
  normalize_rows j g rows = Ok (map (fun r => replace r j (g (nth j r fzero))) rows).
Proof.
  intros H Hj. apply omap_all_ok. intros r Hr. unfold rect in H. rewrite Forall_forall in H. apply H in Hr.
  rewrite (lget_nth r j fzero) by lia. cbn. unfold lset. destruct (Nat.ltb_spec j (length r)); [reflexivity|lia].
Qed.

Lemma column_ok w j rows : rect w rows -> j < w -> omap (fun row => lget row j) rows = Ok (column rows j).
Proof.
  intros H Hj. apply omap_all_ok. intros r Hr. unfold rect in H. rewrite Forall_forall in H. apply H in Hr.
  apply lget_nth. lia.
Qed.

Lemma normalize_col_ok w lo hi tr te j :
  rect w tr -> rect w te -> tr <> [] -> j < w ->
  normalize_col lo hi (tr, te) j =
    Ok (map (fun r => replace r j (col_map lo hi tr j (nth j r fzero))) tr,
        map (fun r => replace r j (col_map lo hi tr j (nth j r fzero))) te).
Proof.
  intros Htr Hte Hne Hj. unfold normalize_col, col_map, col_minmax. rewrite (column_ok w j tr Htr Hj). cbn [bind].
  destruct (column tr j) as [|x0 rest] eqn:E; [destruct tr; cbn in E; congruence|].
  destruct (fold_left minmax_step rest (x0, x0)) as [mi ma].
  rewrite (normalize_rows_ok w) by auto. cbn [bind]. rewrite (normalize_rows_ok w) by auto. reflexivity.
Qed.

Lemma rect_map_replace w j (f : list F -> F) rows : rect w rows -> rect w (map (fun r => replace r j (f r)) rows).
Proof. unfold rect. rewrite !Forall_forall. intros H r Hr. apply in_map_iff in Hr as (r0 & <- & Hr0). rewrite replace_length. auto. Qed.

Lemma cell_map_replace w j (f : list F -> F) rows i j' :
  rect w rows -> i < length rows -> j < w ->
  cell (map (fun r => replace r j (f r)) rows) i j' = if j' =? j then f (nth i rows []) else cell rows i j'.
Proof.
  intros H Hi Hj. unfold cell.
  rewrite (nth_map_in (fun r => replace r j (f r)) rows i [] []) by auto. rewrite nth_replace.
  assert (length (nth i rows []) = w). { unfold rect in H. rewrite Forall_forall in H. apply H. now apply nth_In. }
  destruct (Nat.ltb_spec j (length (nth i rows []))); [reflexivity|lia].
Qed.

Lemma column_ext w rows rows' j :
  length rows' = length rows -> rect w rows -> rect w rows' -> (forall i, i < length rows -> cell rows' i j = cell rows i j) ->
  column rows' j = column rows j.
Proof.
  intros Hl _ _ H. unfold column. apply nth_ext with (d := fzero) (d' := fzero); rewrite !map_length; auto.
  intros n Hn. rewrite !(nth_map_in (fun r => nth j r fzero) _ n fzero []) by lia.
  apply H. lia.
Qed.

Definition col_inv (w k : nat) (lo hi : F) (tr te tr' te' : list (list F)) : Prop :=
  rect w tr' /\ rect w te' /\ length tr' = length tr /\ length te' = length te /\
  (forall i j, i < length tr -> cell tr' i j = if j <? k then col_map lo hi tr j (cell tr i j) else cell tr i j) /\
  (forall i j, i < length te -> cell te' i j = if j <? k then col_map lo hi tr j (cell te i j) else cell te i j).

Lemma normalize_loop w lo hi tr te k :
  rect w tr -> rect w te -> tr <> [] -> k <= w ->
  exists tr' te', ofold (normalize_col lo hi) (seq 0 k) (tr, te) = Ok (tr', te') /\ col_inv w k lo hi tr te tr' te'.
Proof.
  intros Htr Hte Hne. induction k as [|k IH]; intros Hk.
  - exists tr, te. cbn. repeat split; auto.
  - destruct IH as (tr1 & te1 & E & (R1 & R2 & L1 & L2 & C1 & C2)); [lia|].
    rewrite seq_S, ofold_app, E. cbn [bind ofold plus].
    assert (tr1 <> []) by (destruct tr1, tr; cbn in *; congruence).
    rewrite (normalize_col_ok w) by (auto; lia). cbn [bind].
    assert (Hcol : col_map lo hi tr1 k = col_map lo hi tr k).
    { unfold col_map, col_minmax. rewrite (column_ext w tr tr1 k); auto.
      intros i Hi. rewrite C1 by auto. destruct (Nat.ltb_spec k k); [lia|auto]. }
    rewrite Hcol. eexists _, _. split; [reflexivity|].
    unfold col_inv. rewrite !map_length. split; [|split; [|split; [|split; [|split]]]]; auto.
    + apply (rect_map_replace w k (fun r => col_map lo hi tr k (nth k r fzero))); auto.
    + apply (rect_map_replace w k (fun r => col_map lo hi tr k (nth k r fzero))); auto.
    + intros i j Hi.
      rewrite (cell_map_replace w k (fun r => col_map lo hi tr k (nth k r fzero))) by (auto; lia).
      destruct (Nat.eqb_spec j k) as [->|Hjk].
      * destruct (Nat.ltb_spec k (S k)); [|lia]. change (nth k (nth i tr1 []) fzero) with (cell tr1 i k).
        rewrite C1 by auto. destruct (Nat.ltb_spec k k); [lia|auto].
      * rewrite C1 by auto. destruct (Nat.ltb_spec j k), (Nat.ltb_spec j (S k)); auto; lia.
    + intros i j Hi.
      rewrite (cell_map_replace w k (fun r => col_map lo hi tr k (nth k r fzero))) by (auto; lia).
      destruct (Nat.eqb_spec j k) as [->|Hjk].
      * destruct (Nat.ltb_spec k (S k)); [|lia]. change (nth k (nth i te1 []) fzero) with (cell te1 i k).
        rewrite C2 by auto. destruct (Nat.ltb_spec k k); [lia|auto].
      * rewrite C2 by auto. destruct (Nat.ltb_spec j k), (Nat.ltb_spec j (S k)); auto; lia.
Qed.

Lemma normalize_cells lo hi (d : Data) :
  rect (d_sizeOfData d) (s_inputs (d_train d)) -> rect (d_sizeOfData d) (s_inputs (d_test d)) -> s_inputs (d_train d) <> [] ->
  exists d', normalize lo hi d = Ok d' /\
    col_inv (d_sizeOfData d) (d_sizeOfData d) lo hi (s_inputs (d_train d)) (s_inputs (d_test d)) (s_inputs (d_train d')) (s_inputs (d_test d'))
    /\ s_labels (d_train d') = s_labels (d_train d) /\ s_labels (d_test d') = s_labels (d_test d)
    /\ s_shuffled (d_train d') = s_shuffled (d_train d).
Proof.
  intros H1 H2 H3. unfold normalize.
  destruct (normalize_loop (d_sizeOfData d) lo hi _ _ (d_sizeOfData d) H1 H2 H3 (le_n _)) as (tr' & te' & E & Hc).
  rewrite E. cbn [bind]. eexists; split; [reflexivity|]. cbn. auto.
Qed.
End G.

(* ---------- real arithmetic ---------- *)
Open Scope R_scope.
Notation cellR := (@cell RNum).
Ltac toR := match goal with |- @eq _ ?a ?b => change (@eq R a b) end.

Lemma Rltb_true a b : Rltb a b = true <-> a < b.
Proof. unfold Rltb. destruct (Rlt_dec a b); split; auto; discriminate. Qed.
Lemma Rltb_false a b : Rltb a b = false <-> b <= a.
Proof. unfold Rltb. destruct (Rlt_dec a b); split; auto; try discriminate; try lra. Qed.
Lemma Rleb_true a b : Rleb a b = true <-> a <= b.
Proof. unfold Rleb. destruct (Rle_dec a b); split; auto; discriminate. Qed.
Lemma Rleb_false a b : Rleb a b = false <-> b < a.
Proof. unfold Rleb. destruct (Rle_dec a b); split; auto; try discriminate; try lra. Qed.
Lemma Reqb_true a b : Reqb a b = true <-> a = b.
Proof. unfold Reqb. destruct (Req_EM_T a b); split; auto; discriminate. Qed.
Lemma Reqb_false a b : Reqb a b = false <-> a <> b.
Proof. unfold Reqb. destruct (Req_EM_T a b); split; auto; try discriminate; tauto. Qed.
Lemma flit_R n d : @flit RNum n d = IZR n / IZR (Zpos d).
Proof. reflexivity. Qed.
Lemma fzero_R : @fzero RNum = 0.
Proof. unfold fzero, fofZ. cbn. field. Qed.
Lemma fone_R : @fone RNum = 1.
Proof. unfold fone, fofZ. cbn. field. Qed.
Lemma fofnat_R n : @fofnat RNum n = INR n.
Proof. unfold fofnat, fofZ. cbn. rewrite <- INR_IZR_INZ. field. Qed.

Lemma minmax_fold (l : list R) : forall mi ma mi' ma', mi <= ma ->
  fold_left (@minmax_step RNum) l (mi, ma) = (mi', ma') ->
  mi' <= mi /\ ma <= ma' /\ mi' <= ma' /\ (forall x, In x l -> mi' <= x <= ma') /\
  (mi' = mi \/ In mi' l) /\ (ma' = ma \/ In ma' l).
Proof.
  induction l as [|x l IH]; intros mi ma mi' ma' H; cbn [fold_left].
  - intros E; injection E as <- <-. repeat split; auto; try lra; destruct H0.
  - assert (Hstep : exists mi1 ma1, @minmax_step RNum (mi, ma) x = (mi1, ma1) /\ mi1 <= mi /\ ma <= ma1 /\ mi1 <= ma1 /\
       mi1 <= x <= ma1 /\ (mi1 = mi \/ mi1 = x) /\ (ma1 = ma \/ ma1 = x)).
    { unfold minmax_step, fgtb; cbn. destruct (Rltb x mi) eqn:E1.
      - apply Rltb_true in E1. exists x, ma. repeat split; auto; lra.
      - apply Rltb_false in E1. destruct (Rltb ma x) eqn:E2.
        + apply Rltb_true in E2. exists mi, x. repeat split; auto; lra.
        + apply Rltb_false in E2. exists mi, ma. repeat split; auto; lra. }
    destruct Hstep as (mi1 & ma1 & -> & H1 & H2 & H3 & H4 & H5 & H6).
    intros Ef. specialize (IH mi1 ma1 mi' ma' H3 Ef).
    destruct IH as (I1 & I2 & I3 & I4 & I5 & I6). repeat split; try lra.
    + destruct H0 as [<-|H0]; [lra|]. now apply I4.
    + destruct H0 as [<-|H0]; [lra|]. now apply I4.
    + destruct I5 as [->|]; [|now right; right]. destruct H5 as [->| ->]; [now left|now right; left].
    + destruct I6 as [->|]; [|now right; right]. destruct H6 as [->| ->]; [now left|now right; left].
Qed.

Lemma in_column (rows : list (list R)) j x :
  In x (@column RNum rows j) <-> exists i, (i < length rows)%nat /\ x = cellR rows i j.
Proof.
  unfold column. rewrite in_map_iff. split.
  - intros (r & <- & Hr). apply (In_nth _ _ []) in Hr as (i & Hi & <-). exists i. split; auto.
  - intros (i & Hi & ->). exists (nth i rows []). split; auto. now apply nth_In.
Qed.

(* the min and max of a column *)
Lemma col_minmax_spec (rows : list (list R)) j : rows <> [] ->
  exists mi ma i1 i2, @col_minmax RNum rows j = (mi, ma) /\ (i1 < length rows)%nat /\ (i2 < length rows)%nat /\
    mi = cellR rows i1 j /\ ma = cellR rows i2 j /\
    forall i, (i < length rows)%nat -> mi <= cellR rows i j <= ma.
Proof.
  intros Hne. unfold col_minmax. destruct (@column RNum rows j) as [|x0 rest] eqn:E.
  { destruct rows; cbn in E; congruence. }
  destruct (fold_left (@minmax_step RNum) rest (x0, x0)) as [mi ma] eqn:Ef.
  pose proof (minmax_fold rest x0 x0 mi ma (Rle_refl _) Ef) as H.
  destruct H as (H1 & H2 & H3 & H4 & H5 & H6).
  assert (Hmi : In mi (@column RNum rows j)) by (rewrite E; destruct H5 as [->|]; [now left|now right]).
  assert (Hma : In ma (@column RNum rows j)) by (rewrite E; destruct H6 as [->|]; [now left|now right]).
  apply in_column in Hmi as (i1 & Hi1 & E1). apply in_column in Hma as (i2 & Hi2 & E2).
  exists mi, ma, i1, i2. repeat split; auto.
  - assert (Hx : In (cellR rows i j) (@column RNum rows j)) by (apply in_column; eauto).
    rewrite E in Hx. destruct Hx as [<-|Hx]; [lra|]. now apply H4.
  - assert (Hx : In (cellR rows i j) (@column RNum rows j)) by (apply in_column; eauto).
    rewrite E in Hx. destruct Hx as [<-|Hx]; [lra|]. now apply H4.
Qed.

Lemma col_map_R lo hi rows j mi ma : @col_minmax RNum rows j = (mi, ma) ->
  forall x, @col_map RNum lo hi rows j x =
    if Req_EM_T (ma - mi) 0 then x * (hi - lo) + lo else (x - mi) / (ma - mi) * (hi - lo) + lo.
Proof.
  intros E x. unfold col_map. rewrite E. unfold rescale. cbn -[fzero]. rewrite fzero_R.
  unfold Reqb. destruct (Req_EM_T (ma - mi) 0); cbn; reflexivity.
Qed.

Lemma normalize_R_l (d : @Data RNum) (lo hi : R) :
  lo <= hi -> @rect RNum (d_sizeOfData d) (s_inputs (d_train d)) -> @rect RNum (d_sizeOfData d) (s_inputs (d_test d)) ->
  s_inputs (d_train d) <> [] ->
  exists d', @normalize RNum lo hi d = Ok d' /\
    s_labels (d_train d') = s_labels (d_train d) /\ s_labels (d_test d') = s_labels (d_test d) /\
    length (s_inputs (d_train d')) = length (s_inputs (d_train d)) /\
    length (s_inputs (d_test d')) = length (s_inputs (d_test d)) /\
    forall j, (j < d_sizeOfData d)%nat ->
      (* the same affine map on both sets *)
      (exists a b, 0 <= a /\
        (forall i, (i < length (s_inputs (d_train d)))%nat -> cellR (s_inputs (d_train d')) i j = a * cellR (s_inputs (d_train d)) i j + b) /\
        (forall i, (i < length (s_inputs (d_test d)))%nat -> cellR (s_inputs (d_test d')) i j = a * cellR (s_inputs (d_test d)) i j + b) /\
        (lo < hi -> 0 < a) /\
        (constant_column (s_inputs (d_train d)) j -> a = hi - lo /\ b = lo)) /\
      (* non constant columns fill [lo,hi] exactly *)
      (~ constant_column (s_inputs (d_train d)) j ->
        (forall i, (i < length (s_inputs (d_train d)))%nat -> lo <= cellR (s_inputs (d_train d')) i j <= hi) /\
        (exists i, (i < length (s_inputs (d_train d)))%nat /\ cellR (s_inputs (d_train d')) i j = lo) /\
        (exists i, (i < length (s_inputs (d_train d)))%nat /\ cellR (s_inputs (d_train d')) i j = hi)).
Proof.
  intros Hlh H1 H2 H3. destruct (@normalize_cells RNum lo hi d H1 H2 H3) as (d' & E & (R1 & R2 & L1 & L2 & C1 & C2) & Hla & Hlb & _).
  exists d'. repeat (split; [assumption|]). intros j Hj.
  destruct (col_minmax_spec (s_inputs (d_train d)) j H3) as (mi & ma & i1 & i2 & Emm & Hi1 & Hi2 & E1 & E2 & Hb).
  pose proof (col_map_R lo hi _ j mi ma Emm) as Hmap.
  assert (Hlt : (j <? d_sizeOfData d)%nat = true) by (apply Nat.ltb_lt; auto).
  assert (Hmm : mi <= ma) by (specialize (Hb i1 Hi1); lra).
  assert (C1' : forall i, (i < length (s_inputs (d_train d)))%nat -> cellR (s_inputs (d_train d')) i j = @col_map RNum lo hi (s_inputs (d_train d)) j (cellR (s_inputs (d_train d)) i j)).
  { intros i Hi. rewrite C1 by auto. now rewrite Hlt. }
  assert (C2' : forall i, (i < length (s_inputs (d_test d)))%nat -> cellR (s_inputs (d_test d')) i j = @col_map RNum lo hi (s_inputs (d_train d)) j (cellR (s_inputs (d_test d)) i j)).
  { intros i Hi. rewrite C2 by auto. now rewrite Hlt. }
  destruct (Req_EM_T (ma - mi) 0) as [Hz|Hz].
  - assert (Hconst : constant_column (s_inputs (d_train d)) j).
    { intros i i' Hi Hi'. pose proof (Hb i Hi). pose proof (Hb i' Hi'). lra. }
    split; [|tauto]. exists (hi - lo), lo. split; [lra|]. split; [|split; [|split]].
    + intros i Hi. rewrite C1', Hmap by auto. destruct (Req_EM_T (ma - mi) 0); [toR; ring|lra].
    + intros i Hi. rewrite C2', Hmap by auto. destruct (Req_EM_T (ma - mi) 0); [toR; ring|lra].
    + lra.
    + auto.
  - assert (Hpos : 0 < ma - mi) by lra. split.
    + exists ((hi - lo) / (ma - mi)), (lo - mi * ((hi - lo) / (ma - mi))).
      split; [apply Rmult_le_pos; [lra|left; apply Rinv_0_lt_compat; lra]|]. split; [|split; [|split]].
      * intros i Hi. rewrite C1', Hmap by auto. destruct (Req_EM_T (ma - mi) 0); [lra|]. toR; field; lra.
      * intros i Hi. rewrite C2', Hmap by auto. destruct (Req_EM_T (ma - mi) 0); [lra|]. toR; field; lra.
      * intros Hl. apply Rmult_lt_0_compat; [lra|apply Rinv_0_lt_compat; lra].
      * intros Hc. exfalso. specialize (Hc i1 i2 Hi1 Hi2). lra.
    + intros _. split; [|split].
      * intros i Hi. rewrite C1', Hmap by auto. destruct (Req_EM_T (ma - mi) 0); [lra|]. specialize (Hb i Hi).
        set (x := cellR (s_inputs (d_train d)) i j) in *.
        assert (0 <= (x - mi) / (ma - mi) <= 1).
        { split.
          - apply Rmult_le_pos; [lra|left; apply Rinv_0_lt_compat; lra].
          - apply Rmult_le_reg_r with (ma - mi); auto. unfold Rdiv. rewrite Rmult_assoc, Rinv_l by lra. lra. }
        nra.
      * exists i1. split; auto. rewrite C1', Hmap by auto. destruct (Req_EM_T (ma - mi) 0); [lra|]. rewrite <- E1. toR; field; lra.
      * exists i2. split; auto. rewrite C1', Hmap by auto. destruct (Req_EM_T (ma - mi) 0); [lra|]. rewrite <- E2. toR; field; lra.
Qed.
