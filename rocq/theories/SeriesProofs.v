From Coq Require Import Permutation ZifyNat.
From Verif Require Import Base Num DataModel DataSpec DataProofs SeqProofs.
Ltac Zify.zify_post_hook ::= Z.div_mod_to_equations.
Local Open Scope nat_scope.
Local Open Scope outcome_scope.
Local Open Scope list_scope.

(* ---------- the writes of one time-series shuffle ---------- *)
Definition lens (size : nat) (st : flags) : Prop :=
  let '(sh, fi, nt) := st in length sh = size /\ length fi = size /\ length nt = size.

Lemma lset_lt {A} (l : list A) i x : i < length l -> lset l i x = Ok (replace l i x).
Proof. intros H. unfold lset. destruct (Nat.ltb_spec i (length l)); auto; lia. Qed.

Lemma nth_error_replace_eq {A} (l : list A) i x : i < length l -> nth_error (replace l i x) i = Some x.
Proof. intros H. rewrite nth_error_replace, Nat.eqb_refl. destruct (Nat.ltb_spec i (length l)); auto; lia. Qed.
Lemma nth_error_replace_neq {A} (l : list A) i j x : j <> i -> nth_error (replace l i x) j = nth_error l j.
Proof. intros H. rewrite nth_error_replace. destruct (Nat.eqb_spec j i); auto; lia. Qed.

Lemma series_cells size r off id q n : forall sh fi nt,
  lens size (sh, fi, nt) -> n <= r + 1 -> off + q * (r + 1) + n <= size ->
  exists sh' fi' nt', ofold (series_cell r off id q) (seq 0 n) (sh, fi, nt) = Ok (sh', fi', nt') /\
    lens size (sh', fi', nt') /\
    (forall j, j < n -> nth_error sh' (off + q * (r + 1) + j) = Some (id * (r + 1) + j + off) /\
                        nth_error fi' (off + q * (r + 1) + j) = Some (j =? 0) /\
                        nth_error nt' (off + q * (r + 1) + j) = Some (j =? r)) /\
    (forall p, p < off + q * (r + 1) \/ off + q * (r + 1) + n <= p ->
       nth_error sh' p = nth_error sh p /\ nth_error fi' p = nth_error fi p /\ nth_error nt' p = nth_error nt p).
Proof.
  induction n as [|n IH]; intros sh fi nt Hl Hn Hs.
  - exists sh, fi, nt. cbn [seq ofold]. repeat split; auto; try apply Hl; lia.
  - destruct (IH sh fi nt Hl) as (sh1 & fi1 & nt1 & E & (L1 & L2 & L3) & Hin & Hout); try lia.
    rewrite seq_S, ofold_app, E. cbn [bind ofold plus]. unfold series_cell at 1.
    rewrite !lset_lt by lia. cbn [bind].
    set (ix := q * (r + 1) + n + off).
    eexists _, _, _. split; [reflexivity|]. split; [cbn; rewrite !replace_length; auto|]. split.
    + intros j Hj. destruct (Nat.eq_dec j n) as [->|Hne].
      * replace (off + q * (r + 1) + n) with ix by (unfold ix; lia).
        rewrite !nth_error_replace_eq by (unfold ix; lia). repeat split.
        -- f_equal. destruct (n =? 0); reflexivity.
        -- f_equal. replace (off <=? ix) with true by (symmetry; apply Nat.leb_le; unfold ix; lia).
           destruct (n =? r); reflexivity.
      * rewrite !nth_error_replace_neq by (unfold ix; lia). apply Hin. lia.
    + intros p Hp. rewrite !nth_error_replace_neq by (unfold ix; lia). apply Hout. lia.
Qed.

Definition fits (size r off id : nat) : bool := id * (r + 1) + r + off <? size.

Lemma series_blocks size r off ids : forall q sh fi nt,
  lens size (sh, fi, nt) ->
  (forall k, filter (fits size r off) ids = k -> off + (q + length k) * (r + 1) <= size) ->
  exists sh' fi' nt', 
    ofold (series_block size r off) ids ((sh, fi, nt), q) =
      Ok ((sh', fi', nt'), q + length (filter (fits size r off) ids)) /\
    lens size (sh', fi', nt') /\
    (forall t id j, nth_error (filter (fits size r off) ids) t = Some id -> j < r + 1 ->
       nth_error sh' (off + (q + t) * (r + 1) + j) = Some (id * (r + 1) + j + off) /\
       nth_error fi' (off + (q + t) * (r + 1) + j) = Some (j =? 0) /\
       nth_error nt' (off + (q + t) * (r + 1) + j) = Some (j =? r)) /\
    (forall p, p < off + q * (r + 1) \/ off + (q + length (filter (fits size r off) ids)) * (r + 1) <= p ->
       nth_error sh' p = nth_error sh p /\ nth_error fi' p = nth_error fi p /\ nth_error nt' p = nth_error nt p).
Proof.
  induction ids as [|id ids IH]; intros q sh fi nt Hl Hfit.
  - exists sh, fi, nt. cbn. rewrite Nat.add_0_r. repeat split; auto; try apply Hl; destruct t; discriminate.
  - specialize (Hfit _ eq_refl). cbn [filter] in Hfit |- *.
    cbn [ofold].
    assert (Eb : series_block size r off (sh, fi, nt, q) id =
       if fits size r off id
       then let* st' := ofold (series_cell r off id q) (seq 0 (r + 1)) (sh, fi, nt) in Ok (st', S q)
       else Ok (sh, fi, nt, q)) by reflexivity.
    rewrite Eb; clear Eb.
    destruct (fits size r off id) eqn:Ef.
    + cbn [length] in Hfit.
      destruct (series_cells size r off id q (r + 1) sh fi nt Hl) as (sh1 & fi1 & nt1 & E & Hl1 & Hin & Hout); try nia.
      rewrite E. cbn [bind].
      destruct (IH (S q) sh1 fi1 nt1 Hl1) as (sh2 & fi2 & nt2 & E2 & Hl2 & Hin2 & Hout2).
      { intros k <-. nia. }
      exists sh2, fi2, nt2. cbn [length]. rewrite Nat.add_succ_r. split; [exact E2|]. split; auto. split.
      * intros [|t] id0 j Hn Hj; cbn in Hn.
        -- injection Hn as <-. rewrite Nat.add_0_r.
           destruct (Hout2 (off + q * (r + 1) + j)) as (-> & -> & ->); [nia|]. now apply Hin.
        -- replace (q + S t) with (S q + t) by lia. now apply Hin2.
      * intros p Hp. destruct (Hout2 p) as (-> & -> & ->); [nia|]. apply Hout. nia.
    + cbn [bind]. destruct (IH q sh fi nt Hl) as (sh2 & fi2 & nt2 & H2); [intros k <-; lia|].
      exists sh2, fi2, nt2. exact H2.
Qed.

Lemma series_tail_spec size r nt : length nt = size -> r + 1 <= size ->
  exists nt', series_tail size r nt = Ok nt' /\ length nt' = size /\
    (forall p, size - (r + 1) <= p -> p < size -> nth_error nt' p = Some false).
Proof.
  intros Hl Hs. unfold series_tail.
  assert (H : forall n, n <= r + 1 -> exists nt',
     ofold (fun l k => lsetZ l (Z.of_nat size - (Z.of_nat r + 1) + Z.of_nat k) false) (seq 0 n) nt = Ok nt' /\
     length nt' = size /\ (forall p, size - (r + 1) <= p -> p < size - (r + 1) + n -> nth_error nt' p = Some false)).
  { induction n as [|n IH]; intros Hn.
    - exists nt. cbn. repeat split; auto. lia.
    - destruct IH as (nt1 & E & L & H1); [lia|].
      rewrite seq_S, ofold_app, E. cbn [bind ofold plus].
      unfold lsetZ. destruct (Z.ltb_spec (Z.of_nat size - (Z.of_nat r + 1) + Z.of_nat n) 0); [lia|].
      replace (Z.to_nat (Z.of_nat size - (Z.of_nat r + 1) + Z.of_nat n)) with (size - (r + 1) + n) by lia.
      rewrite lset_lt by lia. cbn [bind]. eexists; split; [reflexivity|]. split; [now rewrite replace_length|].
      intros p Hp1 Hp2. destruct (Nat.eq_dec p (size - (r + 1) + n)) as [->|].
      + apply nth_error_replace_eq. lia.
      + rewrite nth_error_replace_neq by auto. apply H1; lia. }
  destruct (H (r + 1) (le_n _)) as (nt' & E & L & H1). exists nt'. repeat split; auto. intros; apply H1; lia.
Qed.

Lemma series_prefix_spec size off : forall sh fi nt,
  lens size (sh, fi, nt) -> off <= size ->
  exists sh' fi' nt', series_prefix off (sh, fi, nt) = Ok (sh', fi', nt') /\ lens size (sh', fi', nt') /\
    (forall p, p < off -> nth_error sh' p = Some p /\ nth_error fi' p = Some false /\ nth_error nt' p = Some true) /\
    (forall p, off <= p -> nth_error sh' p = nth_error sh p /\ nth_error fi' p = nth_error fi p /\ nth_error nt' p = nth_error nt p).
Proof.
  induction off as [|off IH]; intros sh fi nt Hl Ho.
  - exists sh, fi, nt. cbn. repeat split; auto; try apply Hl; lia.
  - destruct (IH sh fi nt Hl) as (sh1 & fi1 & nt1 & E & (L1 & L2 & L3) & Hin & Hout); [lia|].
    unfold series_prefix in *. rewrite seq_S, ofold_app, E. cbn [bind ofold plus].
    rewrite !lset_lt by lia. cbn [bind].
    eexists _, _, _. split; [reflexivity|]. split; [cbn; rewrite !replace_length; auto|]. split.
    + intros p Hp. destruct (Nat.eq_dec p off) as [->|].
      * rewrite !nth_error_replace_eq by lia. auto.
      * rewrite !nth_error_replace_neq by auto. apply Hin. lia.
    + intros p Hp. rewrite !nth_error_replace_neq by lia. apply Hout. lia.
Qed.

Lemma filter_perm {A} (f : A -> bool) l l' : Permutation l l' -> Permutation (filter f l) (filter f l').
Proof.
  induction 1; cbn; auto.
  - destruct (f x); auto.
  - destruct (f x), (f y); auto. apply perm_swap.
  - etransitivity; eauto.
Qed.

Lemma filter_all {A} (f : A -> bool) l : (forall x, In x l -> f x = true) -> filter f l = l.
Proof. induction l as [|a l IH]; cbn; intros H; auto. rewrite H by auto. f_equal; auto. Qed.
Lemma filter_none {A} (f : A -> bool) l : (forall x, In x l -> f x = false) -> filter f l = [].
Proof. induction l as [|a l IH]; cbn; intros H; auto. rewrite H by auto. auto. Qed.

Lemma fits_seq size r off : off <= size ->
  filter (fits size r off) (seq 0 (size / (r + 1))) = seq 0 ((size - off) / (r + 1)).
Proof.
  intros Ho. set (M := (size - off) / (r + 1)). set (D := size / (r + 1)).
  assert (HMD : M <= D) by (apply Nat.div_le_mono; lia).
  replace D with (M + (D - M)) by lia. rewrite seq_app, filter_app.
  assert (HM : forall id, fits size r off id = true <-> id < M).
  { intros id. unfold fits. rewrite Nat.ltb_lt. split; intros H.
    - assert (S id <= M); [|lia]. apply Nat.div_le_lower_bound; [lia|nia].
    - pose proof (Nat.mul_div_le (size - off) (r + 1)). fold M in H0. nia. }
  rewrite filter_all, filter_none; [now rewrite app_nil_r| |].
  - intros x Hx. apply in_seq in Hx. destruct (fits size r off x) eqn:E; auto. apply HM in E. lia.
  - intros x Hx. apply in_seq in Hx. apply HM. lia.
Qed.

(* description of the flags after a shuffle with block order [blocks] *)
Definition shuffled_state (size r off : nat) (blocks : list nat) (old : list nat) (st : flags) : Prop :=
  let '(sh, fi, nt) := st in
  lens size st /\
  Permutation blocks (seq 0 ((size - off) / (r + 1))) /\
  (forall p, p < off -> nth_error sh p = Some p /\ nth_error fi p = Some (p =? 0) /\ nth_error nt p = Some true) /\
  (forall t id j, nth_error blocks t = Some id -> j < r + 1 ->
     nth_error sh (off + t * (r + 1) + j) = Some (id * (r + 1) + j + off) /\
     nth_error fi (off + t * (r + 1) + j) = Some (j =? 0) /\
     nth_error nt (off + t * (r + 1) + j) = Some (j =? r)) /\
  (forall p, off + length blocks * (r + 1) <= p -> p < size ->
     nth_error sh p = nth_error old p /\ nth_error nt p = Some false).

Lemma series_shuffle_spec size r off ids sh fi nt :
  lens size (sh, fi, nt) -> r + 1 <= size -> off <= r ->
  Permutation ids (seq 0 (size / (r + 1))) ->
  exists st', series_shuffle size r off ids (sh, fi, nt) = Ok st' /\
    shuffled_state size r off (filter (fits size r off) ids) sh st'.
Proof.
  intros (L1 & L2 & L3) Hs Ho Hp. unfold series_shuffle.
  destruct (series_tail_spec size r nt L3 Hs) as (nt1 & E1 & Ln1 & Ht). rewrite E1. cbn [bind].
  destruct (series_prefix_spec size off sh fi nt1) as (sh2 & fi2 & nt2 & E2 & (M1 & M2 & M3) & Hin & Hout); [cbn; auto|lia|].
  rewrite E2. cbn [bind]. rewrite lset_lt by lia. cbn [bind].
  set (bl := filter (fits size r off) ids).
  assert (Hpb : Permutation bl (seq 0 ((size - off) / (r + 1)))).
  { rewrite <- fits_seq by lia. now apply filter_perm. }
  assert (Hlb : length bl = (size - off) / (r + 1)) by (rewrite (Permutation_length Hpb), seq_length; auto).
  assert (Hbs : off + length bl * (r + 1) <= size).
  { rewrite Hlb. pose proof (Nat.mul_div_le (size - off) (r + 1)). nia. }
  assert (Htl : size - (off + length bl * (r + 1)) < r + 1).
  { rewrite Hlb. pose proof (Nat.mod_upper_bound (size - off) (r + 1)). 
    pose proof (Nat.div_mod (size - off) (r + 1)). nia. }
  destruct (series_blocks size r off ids 0 sh2 (replace fi2 0 true) nt2) as (sh3 & fi3 & nt3 & E3 & L' & Hin3 & Hout3).
  { cbn. rewrite replace_length. auto. }
  { intros k <-. cbn. exact Hbs. }
  rewrite E3. cbn [bind fst]. eexists; split; [reflexivity|].
  unfold shuffled_state. split; [exact L'|]. split; [exact Hpb|]. fold bl in Hin3, Hout3. split; [|split].
  - intros p Hpo. destruct (Hout3 p) as (-> & -> & ->); [left; lia|].
    destruct (Hin p Hpo) as (-> & Hfi & ->). repeat split.
    destruct (Nat.eqb_spec p 0) as [->|].
    + apply nth_error_replace_eq. lia.
    + rewrite nth_error_replace_neq by auto. exact Hfi.
  - intros t id j Hn Hj. apply (Hin3 t id j Hn Hj).
  - intros p Hp1 Hp2. destruct (Hout3 p) as (-> & _ & ->); [right; cbn; lia|].
    destruct (Hout p) as (-> & _ & ->); [lia|]. split; auto. apply Ht; lia.
Qed.

Section P.
Context {N : Num}.

Definition SeriesInv (r : nat) (trIn trLab : list (list F)) (d : Data) : Prop :=
  s_inputs (d_train d) = trIn /\ s_labels (d_train d) = trLab /\ s_size (d_train d) = length trLab /\
  lens (length trLab) (s_shuffled (d_train d), s_first (d_train d), s_train (d_train d)) /\
  (forall i, In i (s_shuffled (d_train d)) -> i < length trLab) /\
  exists ids off, d_temporal d = TSeries r ids off /\ off <= r /\
    Permutation ids (seq 0 (length trLab / (r + 1))).

Lemma mkData4_series_inv p trIn trLab teIn teLab rec d :
  mkData4 p trIn trLab teIn teLab timeSeries rec = Ok d ->
  (1 <= rec)%Z /\ SeriesInv (Z.to_nat rec) trIn trLab d.
Proof.
  unfold mkData4, initialize. destruct (rev trIn); try discriminate.
  destruct (rev trLab); try discriminate. unfold series_ctor.
  destruct (Z.ltb_spec rec 1); cbn [bind]; [discriminate|].
  cbn [s_size emptySet s_first s_train s_eval s_nseq s_shuffled s_inputs s_labels].
  unfold lset. rewrite repeat_length. destruct (Nat.ltb_spec 0 (length trLab)); [|discriminate].
  cbn [bind]. intros H1. apply bind_Ok_inv in H1 as (e & _ & H1). destruct (negb (e =? 0)); try discriminate.
  injection H1 as <-. split; auto. unfold SeriesInv. cbn.
  rewrite seq_length, replace_length, !repeat_length. repeat split; auto.
  - intros i Hi. apply in_seq in Hi. lia.
  - exists (seq 0 (length trLab / (Z.to_nat rec + 1))), 0. repeat split; auto. lia.
Qed.

(* what a shuffle leaves behind, in terms of the flag vectors *)
Definition SeriesShuffled (r off : nat) (trIn trLab : list (list F)) (d : Data) : Prop :=
  exists blocks old, off <= r /\
    (exists ids, d_temporal d = TSeries r ids ((off + 1) mod (r + 1))) /\
    shuffled_state (length trLab) r off blocks old (s_shuffled (d_train d), s_first (d_train d), s_train (d_train d)).

Lemma shuffle_series r trIn trLab d rng ids off :
  fair_rng rng -> r + 1 <= length trLab -> SeriesInv r trIn trLab d -> d_temporal d = TSeries r ids off ->
  exists d', shuffle rng d = Ok d' /\ SeriesInv r trIn trLab d' /\ SeriesShuffled r off trIn trLab d'.
Proof.
  intros Hf Hs (Hi & Hl & Hsz & Hlens & Hin & ids0 & off0 & Ht & Ho & Hp) Ht'.
  rewrite Ht' in Ht. injection Ht as <- <-.
  unfold shuffle. rewrite Ht'.
  destruct (rshuffle_fair rng ids Hf) as (ids' & E & Hp'). rewrite E. cbn [bind].
  rewrite Hsz. destruct (series_shuffle_spec (length trLab) r off ids' _ _ _ Hlens Hs Ho) as ([[sh fi] nt] & E2 & Hst).
  { now rewrite Hp'. }
  rewrite E2. cbn [bind]. eexists; split; [reflexivity|].
  pose proof Hst as (Hlens' & Hpb & Hpre & Hblk & Htail).
  split.
  - unfold SeriesInv. cbn. repeat split; auto; try apply Hlens'.
    + intros i Hini. apply In_nth_error in Hini as (p & Hpn).
      assert (p < length trLab). { rewrite <- (proj1 Hlens'). apply nth_error_Some. congruence. }
      assert (Hlb : length (filter (fits (length trLab) r off) ids') = (length trLab - off) / (r + 1))
        by (rewrite (Permutation_length Hpb), seq_length; auto).
      pose proof (Nat.mul_div_le (length trLab - off) (r + 1)).
      destruct (Nat.ltb_spec p off).
      { destruct (Hpre p) as (Hx & _); auto. rewrite Hx in Hpn. injection Hpn as <-. auto. }
      destruct (Nat.ltb_spec p (off + length (filter (fits (length trLab) r off) ids') * (r + 1))).
      * assert (Hq : (p - off) / (r + 1) < length (filter (fits (length trLab) r off) ids')).
        { apply Nat.div_lt_upper_bound; lia. }
        destruct (nth_error (filter (fits (length trLab) r off) ids') ((p - off) / (r + 1))) as [id|] eqn:Eq;
          [|apply nth_error_None in Eq; lia].
        pose proof (Nat.mod_upper_bound (p - off) (r + 1)).
        destruct (Hblk _ id ((p - off) mod (r + 1)) Eq) as (Hx & _); [lia|].
        replace (off + (p - off) / (r + 1) * (r + 1) + (p - off) mod (r + 1)) with p in Hx
          by (pose proof (Nat.div_mod (p - off) (r + 1)); nia).
        rewrite Hx in Hpn. injection Hpn as <-.
        assert (Hid : id < (length trLab - off) / (r + 1)).
        { apply nth_error_In in Eq. apply (Permutation_in _ Hpb) in Eq. apply in_seq in Eq. lia. }
        nia.
      * destruct (Htail p) as (Hx & _); auto. rewrite Hx in Hpn.
        apply Hin. eapply nth_error_In; eauto.
    + exists ids', ((off + 1) mod (r + 1)). split; auto. split.
      * pose proof (Nat.mod_upper_bound (off + 1) (r + 1)). lia.
      * now rewrite Hp'.
  - unfold SeriesShuffled. exists (filter (fits (length trLab) r off) ids'), (s_shuffled (d_train d)).
    split; auto. split; [cbn; eauto|]. exact Hst.
Qed.

Lemma unshuffle_series r trIn trLab d :
  0 < length trLab -> SeriesInv r trIn trLab d -> exists d', unshuffle d = Ok d' /\ SeriesInv r trIn trLab d' /\ d_temporal d' = d_temporal d.
Proof.
  intros Hpos (Hi & Hl & Hsz & Hlens & Hin & ids & off & Ht & Ho & Hp).
  unfold unshuffle. rewrite Ht. cbn [base_unshuffle with_shuffled s_size]. rewrite Hsz.
  rewrite lset_lt by (rewrite repeat_length; lia). cbn [bind].
  eexists; split; [reflexivity|]. split; auto.
  unfold SeriesInv. cbn. rewrite seq_length, replace_length, !repeat_length, ?Hsz. repeat split; auto.
  - intros i Hi'. apply in_seq in Hi'. lia.
  - exists ids, off. auto.
Qed.

Lemma run_ops_series r trIn trLab ops d :
  Forall fair_op ops -> r + 1 <= length trLab -> SeriesInv r trIn trLab d ->
  exists d', run_ops ops d = Ok d' /\ SeriesInv r trIn trLab d'.
Proof.
  intros Hf Hs. revert d. unfold run_ops. induction Hf as [|o ops Ho _ IH]; cbn; intros d H; eauto.
  assert (exists d1, run_op d o = Ok d1 /\ SeriesInv r trIn trLab d1) as (d1 & E & H1).
  { destruct o as [rng|]; cbn.
    - pose proof H as (_ & _ & _ & _ & _ & ids & off & Ht & _).
      destruct (shuffle_series r trIn trLab d rng ids off) as (d1 & E & H1 & _); eauto.
    - destruct (unshuffle_series r trIn trLab d) as (d1 & E & H1 & _); eauto. lia. }
  rewrite E. cbn. auto.
Qed.

(* learned samples of a shuffled state *)
Lemma shuffled_positions size r off blocks old st p :
  r + 1 <= size -> off <= r -> shuffled_state size r off blocks old st -> p < size ->
  p < off \/ (exists t id j, nth_error blocks t = Some id /\ j < r + 1 /\ p = off + t * (r + 1) + j) \/
  off + length blocks * (r + 1) <= p.
Proof.
  intros Hs Ho Hst Hp. destruct st as [[sh fi] nt].
  destruct (Nat.ltb_spec p off); auto.
  destruct (Nat.ltb_spec p (off + length blocks * (r + 1))); auto.
  right; left. assert (Hq : (p - off) / (r + 1) < length blocks) by (apply Nat.div_lt_upper_bound; lia).
  destruct (nth_error blocks ((p - off) / (r + 1))) as [id|] eqn:Eq; [|apply nth_error_None in Eq; lia].
  exists ((p - off) / (r + 1)), id, ((p - off) mod (r + 1)).
  pose proof (Nat.mod_upper_bound (p - off) (r + 1)). pose proof (Nat.div_mod (p - off) (r + 1)). repeat split; auto; try lia; nia.
Qed.

Lemma learned_window size r off blocks old sh fi nt p s :
  r + 1 <= size -> off <= r -> shuffled_state size r off blocks old (sh, fi, nt) ->
  nth_error nt p = Some true -> nth_error sh p = Some s ->
  exists k, k <= p /\ nth_error fi (p - k) = Some true /\
    (forall t, t < k -> nth_error fi (p - t) = Some false) /\
    (forall t, t <= k -> t <= s /\ nth_error sh (p - t) = Some (s - t)) /\
    (k = r \/ (p < r /\ k = p /\ s = p)).
Proof.
  intros Hs Ho Hst Hn Hsp. pose proof Hst as (Hl & Hpb & Hpre & Hblk & Htail).
  assert (Hp : p < size). { destruct Hl as (_ & _ & <-). apply nth_error_Some. congruence. }
  destruct (shuffled_positions _ _ _ _ _ _ p Hs Ho Hst Hp) as [H|[(t & id & j & Hb & Hj & ->)|H]].
  - exists p. destruct (Hpre p H) as (E & _). rewrite E in Hsp. injection Hsp as <-.
    rewrite Nat.sub_diag. repeat split; auto; try lia.
    + destruct (Hpre 0) as (_ & E0 & _); [lia|]. exact E0.
    + intros t Ht. destruct (Hpre (p - t)) as (_ & E0 & _); [lia|]. rewrite E0. f_equal. apply Nat.eqb_neq. lia.
    + destruct (Hpre (p - t)) as (E0 & _ & _); [lia|]. exact E0.
  - destruct (Hblk t id j Hb Hj) as (E1 & _ & E3). rewrite E3 in Hn. injection Hn as Hn. apply Nat.eqb_eq in Hn. subst j.
    rewrite E1 in Hsp. injection Hsp as <-.
    exists r. repeat split; auto; try lia.
    + destruct (Hblk t id 0 Hb) as (_ & E0 & _); [lia|].
      replace (off + t * (r + 1) + r - r) with (off + t * (r + 1) + 0) by lia. exact E0.
    + intros u Hu. destruct (Hblk t id (r - u) Hb) as (_ & E0 & _); [lia|].
      replace (off + t * (r + 1) + r - u) with (off + t * (r + 1) + (r - u)) by lia. rewrite E0. f_equal. apply Nat.eqb_neq. lia.
    + destruct (Hblk t id (r - t0) Hb) as (E0 & _ & _); [lia|].
      replace (off + t * (r + 1) + r - t0) with (off + t * (r + 1) + (r - t0)) by lia. rewrite E0. f_equal. lia.
  - destruct (Htail p H Hp) as (_ & E). congruence.
Qed.

Lemma learned_once size r off blocks old sh fi nt p p' s :
  r + 1 <= size -> off <= r -> shuffled_state size r off blocks old (sh, fi, nt) ->
  nth_error nt p = Some true -> nth_error nt p' = Some true ->
  nth_error sh p = Some s -> nth_error sh p' = Some s -> p = p'.
Proof.
  intros Hs Ho Hst Hn Hn' Hsp Hsp'. pose proof Hst as (Hl & Hpb & Hpre & Hblk & Htail).
  assert (Hp : p < size). { destruct Hl as (_ & _ & <-). apply nth_error_Some. congruence. }
  assert (Hp' : p' < size). { destruct Hl as (_ & _ & <-). apply nth_error_Some. congruence. }
  assert (Hform : forall q, q < size -> nth_error nt q = Some true -> nth_error sh q = Some s ->
     (q < off /\ s = q) \/ (exists t id, nth_error blocks t = Some id /\ q = off + t * (r + 1) + r /\ s = id * (r + 1) + r + off)).
  { intros q Hq Hnq Hsq. destruct (shuffled_positions _ _ _ _ _ _ q Hs Ho Hst Hq) as [H|[(t & id & j & Hb & Hj & ->)|H]].
    - left. destruct (Hpre q H) as (E & _). split; congruence.
    - right. destruct (Hblk t id j Hb Hj) as (E1 & _ & E3). rewrite E3 in Hnq. injection Hnq as Hnq. apply Nat.eqb_eq in Hnq. subst j.
      exists t, id. repeat split; auto. congruence.
    - destruct (Htail q H Hq) as (_ & E). congruence. }
  destruct (Hform p Hp Hn Hsp) as [[? ?]|(t & id & Hb & -> & Hse)], (Hform p' Hp' Hn' Hsp') as [[? ?]|(t' & id' & Hb' & -> & Hse')]; try lia.
  - assert (id = id') by nia. subst id'.
    assert (t = t').
    { assert (Hnd : NoDup blocks) by (eapply Permutation_NoDup; [symmetry; apply Hpb|apply seq_NoDup]).
      rewrite NoDup_nth_error in Hnd. apply Hnd; [apply nth_error_Some; congruence|congruence]. }
    subst. reflexivity.
Qed.

Lemma learned_some size r off blocks old sh fi nt s :
  r + 1 <= size -> off <= r -> shuffled_state size r off blocks old (sh, fi, nt) ->
  s < size -> (s < off \/ (off <= s /\ (s - off) mod (r + 1) = r)) ->
  exists p, p < size /\ nth_error nt p = Some true /\ nth_error sh p = Some s.
Proof.
  intros Hs Ho Hst Hlt Hc. pose proof Hst as (Hl & Hpb & Hpre & Hblk & Htail).
  destruct Hc as [H|[H1 H2]].
  - exists s. destruct (Hpre s H) as (E1 & _ & E3). auto.
  - set (id := (s - off) / (r + 1)).
    pose proof (Nat.div_mod (s - off) (r + 1)) as Hdm. fold id in Hdm.
    assert (Hid : In id blocks).
    { apply (Permutation_in _ (Permutation_sym Hpb)). apply in_seq. split; [lia|]. cbn.
      assert (S id <= (size - off) / (r + 1)); [|lia]. apply Nat.div_le_lower_bound; [lia|nia]. }
    apply In_nth_error in Hid as (t & Ht).
    destruct (Hblk t id r Ht) as (E1 & _ & E3); [lia|].
    exists (off + t * (r + 1) + r). rewrite E3, E1, Nat.eqb_refl. repeat split.
    + destruct Hl as (_ & _ & <-). apply nth_error_Some. congruence.
    + f_equal. nia.
Qed.

Lemma lget_iff {A} (l : list A) i x : lget l i = Ok x <-> nth_error l i = Some x.
Proof. apply lget_Ok. Qed.

(* ---- C05 in API terms ---- *)
Lemma series_windows_l p trIn trLab teIn teLab rec d ops rng :
  mkData4 p trIn trLab teIn teLab timeSeries rec = Ok d ->
  length trIn = length trLab ->
  (rec + 1 <= Z.of_nat (length trLab))%Z ->
  Forall fair_op ops -> fair_rng rng ->
  exists d' order, run_ops (ops ++ [OpShuffle rng]) d = Ok d' /\
    length order = length trLab /\ Forall (fun s => s < length trLab) order /\
    (forall i s x y, nth_error order i = Some s -> nth_error trIn s = Some x -> nth_error trLab s = Some y ->
       exposes d' i x y) /\
    (forall i s, nth_error order i = Some s -> needToLearn d' i = Ok true ->
       exists k, k <= i /\ isFirstTraining d' (i - k) = Ok true /\
         (forall t, t < k -> isFirstTraining d' (i - t) = Ok false) /\
         (forall t, t <= k -> t <= s /\ nth_error order (i - t) = Some (s - t)) /\
         (Z.of_nat k = rec \/ ((Z.of_nat i < rec)%Z /\ k = i /\ s = i))) /\
    (forall i i' s, nth_error order i = Some s -> nth_error order i' = Some s ->
       needToLearn d' i = Ok true -> needToLearn d' i' = Ok true -> i = i').
Proof.
  intros Hd Hlen Hsz Hf Hr. destruct (mkData4_series_inv _ _ _ _ _ _ _ Hd) as (Hrec & Hinv).
  set (r := Z.to_nat rec) in *. assert (Hs : r + 1 <= length trLab) by lia.
  destruct (run_ops_series r trIn trLab ops d Hf Hs Hinv) as (d1 & E1 & H1).
  pose proof H1 as (_ & _ & _ & _ & _ & ids & off & Ht & _).
  destruct (shuffle_series r trIn trLab d1 rng ids off Hr Hs H1 Ht) as (d2 & E2 & H2 & (blocks & old & Ho & (ids2 & Ht2) & Hst)).
  exists d2, (s_shuffled (d_train d2)).
  destruct H2 as (Hi2 & Hl2 & Hsz2 & Hlens2 & Hin2 & _).
  split. { unfold run_ops. rewrite ofold_app. fold (run_ops ops d). rewrite E1. cbn. now rewrite E2. }
  split; [apply Hlens2|]. split; [now apply Forall_forall|]. split; [|split].
  - intros i s x y Hos Hx Hy. apply exposes_visits. unfold visits. rewrite Hi2, Hl2.
    split; exists s; rewrite !lget_iff; auto.
  - intros i s Hos Hlearn. unfold needToLearn, isFirstTraining in *. rewrite Ht2 in *.
    apply lget_iff in Hlearn.
    destruct (learned_window _ _ _ _ _ _ _ _ i s Hs Ho Hst Hlearn Hos) as (k & Hk & Hf1 & Hf2 & Hord & Hkr).
    exists k. split; auto. split; [now apply lget_iff|]. split; [intros; apply lget_iff; auto|]. split; auto.
    destruct Hkr as [->|(? & ? & ?)]; [left; lia|right; repeat split; auto; lia].
  - intros i i' s Ho1 Ho2 Hl1 Hl2'. unfold needToLearn in *. rewrite Ht2 in *. apply lget_iff in Hl1, Hl2'.
    eapply learned_once; eauto.
Qed.

(* ---- every sample is learnt within r+1 consecutive epochs ---- *)
(* offset used by the n-th of consecutive shuffles *)
Lemma shuffle_iter r trIn trLab : forall rngs d ids off,
  Forall fair_rng rngs -> r + 1 <= length trLab -> SeriesInv r trIn trLab d -> d_temporal d = TSeries r ids off -> off <= r ->
  forall n, n < length rngs -> exists d', run_ops (map OpShuffle (firstn (S n) rngs)) d = Ok d' /\
     SeriesInv r trIn trLab d' /\ SeriesShuffled r ((off + n) mod (r + 1)) trIn trLab d'.
Proof.
  induction rngs as [|rng rngs IH]; intros d ids off Hf Hs Hinv Ht Ho n Hn; [cbn in Hn; lia|].
  inversion Hf; subst.
  destruct (shuffle_series r trIn trLab d rng ids off) as (d1 & E1 & Hinv1 & Hsh1); auto.
  destruct n as [|n].
  - exists d1. cbn. rewrite E1. cbn. split; auto. split; auto.
    replace ((off + 0) mod (r + 1)) with off; auto. rewrite Nat.add_0_r, Nat.mod_small; lia.
  - pose proof Hsh1 as (bl & old & _ & (ids1 & Ht1) & _).
    destruct (IH d1 ids1 ((off + 1) mod (r + 1))) with (n := n) as (d2 & E2 & H2a & H2b); auto.
    { pose proof (Nat.mod_upper_bound (off + 1) (r + 1)). lia. }
    { cbn in Hn. lia. }
    exists d2. split; [|split; auto].
    + change (firstn (S (S n)) (rng :: rngs)) with (rng :: firstn (S n) rngs).
      unfold run_ops in *. cbn [map ofold run_op]. rewrite E1. cbn [bind]. exact E2.
    + replace ((off + S n) mod (r + 1)) with (((off + 1) mod (r + 1) + n) mod (r + 1)); auto.
      rewrite Nat.add_mod_idemp_l by lia. f_equal. lia.
Qed.

Lemma series_coverage_l p trIn trLab teIn teLab rec d ops rngs s x y :
  mkData4 p trIn trLab teIn teLab timeSeries rec = Ok d ->
  length trIn = length trLab ->
  (rec + 1 <= Z.of_nat (length trLab))%Z ->
  Forall fair_op ops -> Forall fair_rng rngs -> Z.of_nat (length rngs) = (rec + 1)%Z ->
  nth_error trIn s = Some x -> nth_error trLab s = Some y ->
  exists n d' i, n < length rngs /\
    run_ops (ops ++ map OpShuffle (firstn (S n) rngs)) d = Ok d' /\
    i < length trLab /\ needToLearn d' i = Ok true /\ exposes d' i x y.
Proof.
  intros Hd Hlen Hsz Hf Hr Hlr Hx Hy. destruct (mkData4_series_inv _ _ _ _ _ _ _ Hd) as (Hrec & Hinv).
  set (r := Z.to_nat rec) in *. assert (Hs : r + 1 <= length trLab) by lia.
  assert (Hlr' : length rngs = r + 1) by lia.
  assert (Hslt : s < length trLab) by (apply nth_error_Some; congruence).
  destruct (run_ops_series r trIn trLab ops d Hf Hs Hinv) as (d1 & E1 & H1).
  pose proof H1 as (_ & _ & _ & _ & _ & ids & off & Ht & Ho & _).
  (* choose the epoch whose offset is (s+1) mod (r+1), or r for the first samples *)
  assert (exists n, n < r + 1 /\ let o := (off + n) mod (r + 1) in s < o \/ (o <= s /\ (s - o) mod (r + 1) = r)) as (n & Hn & Hc).
  { set (target := if s <? r then r else (s + 1) mod (r + 1)).
    assert (Htg : target < r + 1). { unfold target. destruct (s <? r); [lia|apply Nat.mod_upper_bound; lia]. }
    exists ((target + (r + 1) - off) mod (r + 1)). split; [apply Nat.mod_upper_bound; lia|].
    cbn zeta. rewrite Nat.add_mod_idemp_r by lia.
    replace (off + (target + (r + 1) - off)) with (target + 1 * (r + 1)) by lia.
    rewrite Nat.mod_add, (Nat.mod_small target) by lia.
    unfold target. destruct (Nat.ltb_spec s r); [left; auto|right].
    pose proof (Nat.div_mod (s + 1) (r + 1)) as Hdm. pose proof (Nat.mod_upper_bound (s + 1) (r + 1)).
    set (q := (s + 1) / (r + 1)) in *. set (m := (s + 1) mod (r + 1)) in *.
    assert (1 <= q). { unfold q. apply Nat.div_le_lower_bound; lia. }
    split; [nia|]. replace (s - m) with (r + (q - 1) * (r + 1)) by nia.
    rewrite Nat.mod_add by lia. apply Nat.mod_small. lia. }
  destruct (shuffle_iter r trIn trLab rngs d1 ids off Hr Hs H1 Ht Ho n) as (d2 & E2 & H2 & (blocks & old & Ho2 & (ids2 & Ht2) & Hst)); [lia|].
  destruct (learned_some _ _ _ _ _ _ _ _ s Hs Ho2 Hst Hslt Hc) as (i & Hi & Hn1 & Hs1).
  exists n, d2, i. split; [lia|]. split.
  { unfold run_ops. rewrite ofold_app. fold (run_ops ops d). rewrite E1. exact E2. }
  split; auto. split.
  - unfold needToLearn. rewrite Ht2. now apply lget_iff.
  - destruct H2 as (Hi2 & Hl2 & _). apply exposes_visits. unfold visits. rewrite Hi2, Hl2.
    split; exists s; rewrite !lget_iff; auto.
Qed.

(* shuffling fewer than r+1 samples writes before the beginning of a vector *)
Lemma series_too_short_ub_l p trIn trLab teIn teLab rec d rng :
  mkData4 p trIn trLab teIn teLab timeSeries rec = Ok d ->
  (Z.of_nat (length trLab) < rec + 1)%Z -> fair_rng rng -> shuffle rng d = UB.
Proof.
  intros Hd Hs Hf. destruct (mkData4_series_inv _ _ _ _ _ _ _ Hd) as (Hrec & Hinv).
  destruct Hinv as (_ & _ & Hsz & _ & _ & ids & off & Ht & _).
  unfold shuffle. rewrite Ht. destruct (rshuffle_fair rng ids Hf) as (w & E & _). rewrite E. cbn [bind].
  unfold series_shuffle, series_tail. rewrite Hsz. rewrite Nat.add_1_r. cbn [seq ofold].
  unfold lsetZ at 1. destruct (Z.ltb_spec (Z.of_nat (length trLab) - (Z.of_nat (Z.to_nat rec) + 1) + Z.of_nat 0) 0); [reflexivity|lia].
Qed.

(* unshuffle restores the original order and flags *)
Lemma series_unshuffle_l p trIn trLab teIn teLab rec d ops i x y :
  mkData4 p trIn trLab teIn teLab timeSeries rec = Ok d ->
  (rec + 1 <= Z.of_nat (length trLab))%Z -> Forall fair_op ops ->
  nth_error trIn i = Some x -> nth_error trLab i = Some y ->
  exists d', run_ops (ops ++ [OpUnshuffle]) d = Ok d' /\ exposes d' i x y /\
    needToLearn d' i = Ok true /\ isFirstTraining d' i = Ok (i =? 0).
Proof.
  intros Hd Hs Hf Hx Hy. destruct (mkData4_series_inv _ _ _ _ _ _ _ Hd) as (Hrec & Hinv).
  destruct (run_ops_series (Z.to_nat rec) trIn trLab ops d Hf ltac:(lia) Hinv) as (d1 & E1 & H1).
  assert (Hi : i < length trLab) by (apply nth_error_Some; congruence).
  destruct H1 as (Hi1 & Hl1 & Hsz1 & _ & _ & ids & off & Ht & _).
  unfold run_ops. rewrite ofold_app. fold (run_ops ops d). rewrite E1. cbn [bind ofold run_op].
  unfold unshuffle. rewrite Ht. cbn [base_unshuffle with_shuffled s_size]. rewrite Hsz1.
  rewrite lset_lt by (rewrite repeat_length; lia). cbn [bind].
  eexists; split; [reflexivity|]. split.
  - apply exposes_visits. unfold visits. cbn. rewrite Hi1, Hl1, ?Hsz1.
    split; exists i; rewrite !lget_iff; (split; [|assumption]);
      rewrite (nth_error_nth' _ 0) by (rewrite seq_length; lia); rewrite seq_nth by lia; reflexivity.
  - unfold needToLearn, isFirstTraining. cbn [d_temporal with_temporal d_train with_flags s_train s_first].
    rewrite !lget_iff. split.
    + now apply nth_error_repeat_lt.
    + rewrite nth_error_replace. rewrite repeat_length. destruct (Nat.ltb_spec 0 (length trLab)); [|lia].
      destruct (i =? 0); auto. now apply nth_error_repeat_lt.
Qed.
End P.
