(* C82: saving a network and the death of the process. *)
From Coq Require Import String Lia.
From Verif Require Import Base Num NumOrder ActModel NeuronModel LayerModel NetModel StatModel WaitModel DataModel FactoryModel TrainModel SaveModel SaveSpec SaveProofs SaveProps.
From Verif Require Import TrainSpec FactorySpec FactoryProps DataProps Witness TrainProps CrashModel CrashSpec CrashProofs.
Local Open Scope outcome_scope.

(* a file of which the end is missing is never taken for a network: loadFrom throws, wherever it has been cut between two values *)
Theorem C82_cut_file_throws : forall (N : Num) (s : Snn) p q, file_of s = p ++ q -> q <> [] -> exists m, loadFrom p = Throw m.
Proof. intros N s p q. exact (cut_throws s p q). Qed.
Print Assumptions C82_cut_file_throws.
(* ... or inside a value that is not the last, whatever is read of this value *)
Theorem C82_cut_value_throws : forall (N : Num) (s : Snn) p t q t', file_of s = p ++ t :: q -> q <> [] -> exists m, loadFrom (p ++ [t']) = Throw m.
Proof. intros N s p t q t'. exact (inside_throws s p t q t'). Qed.
Print Assumptions C82_cut_value_throws.
(* cut anywhere, a file that loads loads as the network saved but for the size of its last training set, which changes neither its
   predictions nor its trainings *)
Theorem C82_cut_file_partial : forall (N : Num) (s : Snn) f s1, all_finite (sgd_numbers (nn_opt (sn_net s))) -> cut_short (file_of s) f -> loadFrom f = Ok s1 ->
  exists s2, loadFrom (file_of s) = Ok s2 /\ but_the_size s1 s2 /\ forall acts, lives s1 acts = lives s2 acts.
Proof.
  intros N s f s1 Ho Hc El. destruct (cut_loads s f Ho Hc) as [[m E]|(k & s2 & E1 & E2)]; [congruence|].
  rewrite El in E2. injection E2 as ->. exists s2. split; [exact E1|]. split; [now exists k|]. intros acts. apply lives_size.
Qed.
Print Assumptions C82_cut_file_partial.
(* whenever the process dies, what can be loaded afterwards is what the last save had written, or what was being written, or the file that
   was there if nothing had been saved to it: never anything else *)
Theorem C82_after_a_crash_partial : forall (N : Num) path before (log : list event) n c s1,
  (forall s, In (Saved path s) log -> all_finite (sgd_numbers (nn_opt (sn_net s)))) ->
  at_crash path before log n c -> load_path c = Ok s1 ->
  (never_saved path log n /\ load_path before = Ok s1) \/
  exists s s2, (latest path log n s \/ nth_error log n = Some (Saved path s)) /\ loadFrom (file_of s) = Ok s2 /\ but_the_size s1 s2 /\ forall acts, lives s1 acts = lives s2 acts.
Proof.
  intros N path before log n c s1 Ho [L|s f Hs Hc] El.
  - destruct (written_first path before log n L) as [[H1 H2]|(s & H1 & H2)]; rewrite H2 in El; [left; auto|right].
    exists s, s1. split; [now left|]. split; [exact El|]. split; [exists (sn_ntrain s1); now destruct s1|reflexivity].
  - right. apply nth_error_In in Hs as Hin. destruct (C82_cut_file_partial N s f s1 (Ho s Hin) Hc El) as (s2 & H). exists s, s2. split; [now right|exact H].
Qed.
Print Assumptions C82_after_a_crash_partial.
(* once a save is over the network is in the file until the next save to it *)
Theorem C82_saved_until_next_save : forall (N : Num) path before (log : list event) n s, n <= List.length log -> latest path log n s ->
  written path before (firstn n log) = Some (file_of s).
Proof.
  intros N path before log n s L (k & Hk & Es & Hj). destruct (written_first path before log n L) as [[H1 _]|(s' & (k' & Hk' & Es' & Hj') & H2)]; [now apply H1 in Es|].
  rewrite H2. destruct (Nat.lt_total k k') as [D|[->|D]]; [now apply (Hj k' s') in Es'|congruence|now apply (Hj' k s) in Es].
Qed.
Print Assumptions C82_saved_until_next_save.
(* ... but saving is not atomic: whatever was in the file, and however good, if the process dies while a network is being saved over it
   there are contents of the file from which nothing can be loaded: every beginning of the new file *)
Theorem C82_previous_network_lost_refuted : forall (N : Num) path before (log : list event) n s p q, nth_error log n = Some (Saved path s) -> file_of s = p ++ q -> q <> [] ->
  at_crash path before log n (Some p) /\ exists m, load_path (Some p) = Throw m.
Proof.
  intros N path before log n s p q En E Hq. split; [apply (crash_saving path before log n s p En); now apply (cut_between _ p q)|]. now apply (cut_throws s p q).
Qed.
Print Assumptions C82_previous_network_lost_refuted.
(* and the automatic save always writes over the same file: the best network so far is lost when the process dies while a better one is saved *)
Theorem C82_autosave_one_file : forall (N : Num) fuel env w b f s d r p s1, train fuel env w b f s d = Some (Ok r) -> In (Saved p s1) (r_log r) -> p = sn_path s /\ sn_path s1 = sn_path s.
Proof.
  intros N fuel env w b f s d r p s1 H Hin. apply train_homely in H as [_ H]. rewrite Forall_forall in H. exact (H _ Hin).
Qed.
Print Assumptions C82_autosave_one_file.
Lemma file_nonempty {N : Num} (s : Snn) : file_of s <> [].
Proof. destruct (file_shape s) as (pre & _ & X). rewrite X. now destruct pre. Qed.
(* a training that saves its network twice: a process that dies before the second save leaves a network that can be loaded, one that dies
   during it leaves nothing *)
Definition lr82 : @F N32 := b32q 3 10.
Definition saved_at (k : nat) (l : list (@event N32)) (c : @Snn N32 -> bool) : bool := match nth_error l k with Some (Saved p s) => String.eqb p "best.snn" && c s | _ => false end.
Lemma saved_at_ok k l c : saved_at k l c = true -> exists s, nth_error l k = Some (Saved "best.snn"%string s) /\ c s = true.
Proof.
  unfold saved_at. destruct (nth_error l k) as [[]|]; try discriminate. intros H. apply andb_true_iff in H as [H1 H2]. apply String.eqb_eq in H1. subst. eauto.
Qed.
Definition not_saved (e : @event N32) : bool := match e with Saved _ _ => false | _ => true end.
Theorem C82_best_network_lost_refuted : exists s0 d r s1 s2 s3, @newSnn N32 draws_t nomasks demo_id2 lr82 (b32 0) = Ok s0 /\
  @mkData4 N32 regression [[b32 1]] [[b32 1]] [[b32 1]] [[b32 1]] nonTemporal 0 = Ok d /\ train 20 env_t (lit_ep 4) 1 1 (auto_on s0) d = Some (Ok r) /\
  nth_error (r_log r) 1 = Some (Saved "best.snn"%string s1) /\ nth_error (r_log r) 11 = Some (Saved "best.snn"%string s2) /\ latest "best.snn"%string (r_log r) 11 s1 /\
  all_finite (sgd_numbers (nn_opt (sn_net s1))) /\ all_finite (sgd_numbers (nn_opt (sn_net s2))) /\ loadFrom (file_of s1) = Ok s3 /\
  (forall before c, at_crash "best.snn"%string before (r_log r) 11 c -> c = Some (file_of s1) \/ exists f, c = Some f /\ cut_short (file_of s2) f) /\
  (forall before, at_crash "best.snn"%string before (r_log r) 11 (Some []) /\ exists m, load_path (Some (@nil (@token N32))) = Throw m).
Proof.
  assert (H : run_check (@newSnn N32 draws_t nomasks demo_id2 lr82 (b32 0)) (fun s0 =>
    run_check (@mkData4 N32 regression [[b32 1]] [[b32 1]] [[b32 1]] [[b32 1]] nonTemporal 0) (fun d =>
    snn_check (train 20 env_t (lit_ep 4) 1 1 (auto_on s0) d) (fun r => (11 <=? List.length (r_log r)) && forallb not_saved (firstn 9 (skipn 2 (r_log r))) &&
      saved_at 1 (r_log r) (fun s => forallb ffinite (snn_numbers s)) && saved_at 11 (r_log r) (fun s => forallb ffinite (snn_numbers s))))) = true) by (vm_compute; reflexivity).
  unpack_all. apply snn_check_ex in H as (r & Er & H). unpack_all.
  repeat match goal with X : saved_at _ _ _ = true |- _ => apply saved_at_ok in X as (? & ? & ?) end.
  match goal with X : nth_error (r_log r) 1 = Some (Saved _ ?a), Y : nth_error (r_log r) 11 = Some (Saved _ ?b) |- _ => set (s1 := a) in *; set (s2 := b) in *; rename X into H1; rename Y into H11 end.
  assert (F1 : all_finite (snn_numbers s1)) by now apply finite_check. assert (F2 : all_finite (snn_numbers s2)) by now apply finite_check.
  assert (L : latest "best.snn"%string (r_log r) 11 s1).
  { exists 1. split; [lia|]. split; [exact H1|]. intros j t Hj E1.
    match goal with X : forallb not_saved _ = true |- _ => rewrite forallb_forall in X; specialize (X (Saved "best.snn"%string t)); cbn in X; discriminate X || (assert (G : false = true); [apply X|discriminate G]) end.
    rewrite <- (firstn_skipn 2 (r_log r)) in E1. assert (L2 : List.length (firstn 2 (r_log r)) = 2). { apply firstn_length_le. assert (Z := nth_error_Some (r_log r) 11). rewrite H11 in Z. assert (11 < List.length (r_log r)) by (apply Z; discriminate). lia. }
    rewrite nth_error_app2, L2 in E1 by lia. rewrite <- (firstn_skipn 9 (skipn 2 (r_log r))) in E1. rewrite nth_error_app1 in E1; [now apply nth_error_In in E1|].
    rewrite firstn_length_le; [lia|]. rewrite skipn_length. assert (Z := nth_error_Some (r_log r) 11). rewrite H11 in Z. assert (11 < List.length (r_log r)) by (apply Z; discriminate). lia. }
  exists w, w0, r, s1, s2, (no_nan (bare s1)). split; [exact E|]. split; [exact E0|]. split; [exact Er|]. split; [exact H1|]. split; [exact H11|]. split; [exact L|].
  assert (sub : forall s : @Snn N32, all_finite (snn_numbers s) -> all_finite (sgd_numbers (nn_opt (sn_net s)))). { intros s. unfold snn_numbers, net_numbers, all_finite. rewrite !Forall_app. tauto. }
  split; [now apply sub|]. split; [now apply sub|]. split; [now apply load_file|]. split.
  - intros before c [Hl|s f Hs Hc]; [left; now apply C82_saved_until_next_save|]. right. rewrite H11 in Hs. injection Hs as <-. eauto.
  - intros before. exact (C82_previous_network_lost_refuted N32 _ before (r_log r) 11 s2 [] (file_of s2) H11 (eq_sym (app_nil_l _)) (file_nonempty s2)).
Qed.
Print Assumptions C82_best_network_lost_refuted.

(* nothing is checked when a file is read: with one value of the file changed (the number of inputs of a neuron) the network loads, and its
   first training reads outside its arrays, where the network that was saved is trained without trouble *)
Definition is_ub {A} (x : option (outcome A)) : bool := match x with Some UB => true | _ => false end.
Definition tok_eqb (a b : @token N32) : bool := match a, b with TZ x, TZ y => Z.eqb x y | _, _ => false end.
Lemma is_ub_ok {A} (x : option (outcome A)) : is_ub x = true -> x = Some UB.
Proof. destruct x as [[]|]; try discriminate; reflexivity. Qed.
Lemma tok_eqb_ok t z : tok_eqb t (TZ z) = true -> t = TZ z.
Proof. destruct t; try discriminate. intros H. apply Z.eqb_eq in H. now subst. Qed.
Lemma split_at {A} (l : list A) : forall k t, nth_error l k = Some t -> l = firstn k l ++ t :: skipn (S k) l.
Proof. induction l as [|a l IH]; intros [|k] t H; try discriminate; cbn in *; [congruence|]. f_equal. now apply IH. Qed.
Theorem C82_damaged_file_refuted : exists s0 d r p a b q s1, @newSnn N32 draws_t nomasks demo_id2 lr82 (b32 0) = Ok s0 /\
  @mkData4 N32 regression [[b32 1]] [[b32 1]] [[b32 1]] [[b32 1]] nonTemporal 0 = Ok d /\
  file_of s0 = p ++ TZ a :: q /\ loadFrom (p ++ TZ b :: q) = Ok s1 /\
  train 20 env_t (lit_ep 1) 1 1 s0 d = Some (Ok r) /\ train 20 env_t (lit_ep 1) 1 1 s1 d = Some UB.
Proof.
  assert (H : run_check (@newSnn N32 draws_t nomasks demo_id2 lr82 (b32 0)) (fun s0 =>
    run_check (@mkData4 N32 regression [[b32 1]] [[b32 1]] [[b32 1]] [[b32 1]] nonTemporal 0) (fun d =>
    run_check (loadFrom (firstn 30 (file_of s0) ++ TZ 6 :: skipn 31 (file_of s0))) (fun s1 =>
    snn_check (train 20 env_t (lit_ep 1) 1 1 s0 d) (fun r => is_ub (train 20 env_t (lit_ep 1) 1 1 s1 d) &&
      match nth_error (file_of s0) 30 with Some t => tok_eqb t (TZ 1) | None => false end)))) = true) by (vm_compute; reflexivity).
  unpack_all. apply snn_check_ex in H as (r & Er & H). unpack_all.
  match goal with X : match nth_error ?l 30 with _ => _ end = true |- _ => destruct (nth_error l 30) as [t|] eqn:Et; [|discriminate X]; rename X into Ht end.
  apply tok_eqb_ok in Ht. subst t.
  match goal with X : is_ub ?a = true |- _ => assert (U : a = Some UB) by exact (is_ub_ok a X) end.
  match goal with X : loadFrom _ = Ok ?s |- _ => exists w, w0, r, (firstn 30 (file_of w)), 1%Z, 6%Z, (skipn 31 (file_of w)), s end.
  split; [exact E|]. split; [exact E0|]. split; [|split; [exact E1|split; [exact Er|exact U]]].
  exact (split_at _ _ _ Et).
Qed.
Print Assumptions C82_damaged_file_refuted.
(* a file cut inside its last number, and one cut between two values *)
Lemma short_size {N : Num} (s : Snn) k j n : all_finite (snn_numbers s) -> (Z.of_nat k / 10 ^ j)%Z = Z.of_nat n ->
  exists f s1, cut_short (file_of (with_ntrain s k)) f /\ loadFrom f = Ok s1 /\ sn_ntrain s1 = n.
Proof.
  intros F E. assert (F1 : all_finite (sgd_numbers (nn_opt (sn_net s)))) by (unfold snn_numbers, net_numbers, all_finite in *; rewrite !Forall_app in F; tauto).
  destruct (exists_last (file_nonempty (with_ntrain s k))) as (p & t & Ef). destruct (file_last _ _ _ Ef) as [Et Hk]. specialize (Hk n).
  assert (X : with_ntrain (with_ntrain s k) n = with_ntrain s n) by now destruct s. rewrite X in Hk. cbn [sn_ntrain with_ntrain] in Et.
  exists (p ++ [TZ (Z.of_nat n)]), (with_ntrain (no_nan (bare s)) n). split; [|split; [|reflexivity]].
  - subst t. apply (cut_inside _ p _ [] (TZ (Z.of_nat n)) Ef). rewrite <- E. apply cut_digits. apply Nat2Z.is_nonneg.
  - rewrite <- Hk, (loaded_size s n F1), (load_file s F). reflexivity.
Qed.
Example C82_hypotheses : exists s, @newSnn N32 draws_t nomasks demo_t (b32q 1 100) (b32q 9 10) = Ok s /\ all_finite (sgd_numbers (nn_opt (sn_net s))) /\
  (exists f s1, cut_short (file_of (with_ntrain s 400)) f /\ loadFrom f = Ok s1 /\ sn_ntrain s1 = 4) /\
  (exists p q, file_of s = p ++ q /\ List.length p = 20 /\ q <> []).
Proof.
  by_compute (run_check (@newSnn N32 draws_t nomasks demo_t (b32q 1 100) (b32q 9 10)) (fun s => forallb ffinite (snn_numbers s) && (21 <=? List.length (file_of s)))).
  exists w. split; [exact E|].
  assert (F : all_finite (snn_numbers w)) by now apply finite_check. clear E.
  split; [unfold snn_numbers, net_numbers, all_finite in *; rewrite !Forall_app in F; tauto|]. split.
  - apply (short_size w 400 2 4 F). vm_compute. reflexivity.
  - exists (firstn 20 (file_of w)), (skipn 20 (file_of w)). split; [now rewrite firstn_skipn|].
    match goal with X : (21 <=? _) = true |- _ => apply Nat.leb_le in X; rename X into L end. split; [apply firstn_length_le; lia|].
    intros X. apply (f_equal (@List.length _)) in X. rewrite skipn_length in X. cbn [List.length] in X. lia.
Qed.
