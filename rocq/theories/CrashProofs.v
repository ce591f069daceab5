(* A reader only takes values from the front of the file, and a network is the only thing in a file that has a text (the path) in it:
   so a file cut short cannot be read to the end. *)
From Coq Require Import String Lia.
From Verif Require Import Base Num ActModel NeuronModel LayerModel NetModel StatModel WaitModel DataModel TrainModel SaveModel SaveSpec SaveProofs CrashModel CrashSpec HistProofs TrainSpec TrainProofs.

Section P.
Context {N : Num}.
(* what a reader has taken is the beginning of what there was *)
Definition good {A} (r : R A) : Prop := forall s, match r s with Ok (_, s') => exists c, fst s = c ++ fst s' | Throw _ => True | UB => False end.
Lemma good_ret {A} (a : A) : good (rret a). Proof. intros s. now exists []. Qed.
Lemma good_fail {A} : good (@fail N A). Proof. intros s. exact I. Qed.
Lemma good_throw {A} m : good (fun _ => @Throw (A * archive) m). Proof. intros s. exact I. Qed.
Lemma good_bind {A B} (r : R A) (k : A -> R B) : good r -> (forall a, good (k a)) -> good (rbind r k).
Proof.
  intros Hr Hk s. unfold rbind. specialize (Hr s). destruct (r s) as [[a s1]|m|]; [|exact I|exact Hr].
  destruct Hr as [c Ec]. specialize (Hk a s1). destruct (k a s1) as [[b s2]|m|]; [|exact I|exact Hk].
  destruct Hk as [d Ed]. exists (c ++ d). now rewrite Ec, Ed, app_assoc.
Qed.
Lemma good_next : good next. Proof. intros [[|t ts] o]; cbn; [exact I|]. now exists [t]. Qed.
Ltac gd := repeat first [assumption | solve [auto] | apply good_ret | apply good_fail | apply good_throw | apply good_next | apply good_bind; [|intro]].
Lemma good_F : good rF. Proof. unfold rF. gd. destruct a; gd. destruct (ffinite x); gd. Qed.
Lemma good_Z : good rZ. Proof. unfold rZ. gd. destruct a; gd. Qed.
Lemma good_B : good rB. Proof. unfold rB. gd. destruct a; gd. Qed.
Lemma good_S : good rS. Proof. unfold rS. gd. destruct a; gd. Qed.
Hint Resolve good_F good_Z good_B good_S : core.
Lemma good_N : good rN. Proof. unfold rN. gd. Qed.
Hint Resolve good_N : core.
Lemma good_times {A} (r : R A) n : good r -> good (rtimes n r).
Proof. intros H. induction n; cbn; gd. Qed.
Lemma good_list {A} (r : R A) : good r -> good (rlist r).
Proof. intros H. unfold rlist. gd. now apply good_times. Qed.
Hint Resolve good_list : core.
Lemma good_Opt : good rOpt.
Proof.
  unfold rOpt. gd. destruct a; gd; try (intros s; destruct (snd s); [now exists []|exact I]).
  intros [ts o]. cbn. now exists [].
Qed.
Hint Resolve good_Opt : core.
Lemma good_Circ : good rCirc. Proof. unfold rCirc. gd. Qed.
Hint Resolve good_Circ : core.
Lemma good_Neuron : good rNeuron. Proof. unfold rNeuron. gd. destruct (act_of _); gd. Qed.
Hint Resolve good_Neuron : core.
Lemma good_RNeuron : good rRNeuron. Proof. unfold rRNeuron. gd. Qed.
Hint Resolve good_RNeuron : core.
Lemma good_GNeuron : good rGNeuron. Proof. unfold rGNeuron. gd. Qed.
Lemma good_LOpt l : good (rLOpt l).
Proof. unfold rLOpt. gd. destruct (negb _); gd. destruct a as [|p|p]; gd. destruct p as [[[]|[]|]|[[]|[]|]|]; gd. Qed.
Lemma good_Filter k : good (rFilter k). Proof. unfold rFilter. gd. destruct (is_pool k); gd. Qed.
Hint Resolve good_GNeuron good_LOpt good_Filter : core.
Lemma good_Layer l : good (rLayer l).
Proof.
  unfold rLayer. apply good_bind; [auto|intros c]. apply good_bind; [auto|intros i].
  assert (G : good (match fkind_of c with Some k => rbind (rlist rNeuron) (fun ns => rbind (rlist (rLOpt l)) (fun os => rbind (rFilter k) (fun f => rret (mkLayer i (BFilter k f ns) os)))) | None => fail end)) by (destruct (fkind_of c); gd).
  destruct c as [|p|p]; [gd| |exact G]. destruct p as [p|p|]; [exact G| |gd]. destruct p; [exact G|exact G|gd].
Qed.
Hint Resolve good_Layer : core.
Lemma good_Layers n : forall l, good (rLayers l n). Proof. induction n; intros l; cbn; gd. Qed.
Hint Resolve good_Layers : core.
Lemma good_Cluster : good rCluster. Proof. unfold rCluster. gd. Qed.
Hint Resolve good_Cluster : core.
Lemma good_Stats : good rStats. Proof. unfold rStats. gd. Qed.
Lemma good_Snn : good rSnn. Proof. unfold rSnn. pose proof good_Stats. gd. Qed.

(* the last seven values *)
Lemma good_bind_inv {A B} (r : R A) (k : A -> R B) s b s' : rbind r k s = Ok (b, s') -> exists a s1, r s = Ok (a, s1) /\ k a s1 = Ok (b, s').
Proof. unfold rbind. destruct (r s) as [[a s1]|m|]; try discriminate. eauto. Qed.
Lemma good_split {A} (r : R A) s a s' : good r -> r s = Ok (a, s') -> exists c, fst s = c ++ fst s'.
Proof. intros G E. specialize (G s). now rewrite E in G. Qed.
Lemma rZ_inv s z s' : rZ s = Ok (z, s') -> fst s = TZ z :: fst s'.
Proof. destruct s as [[|[]] o]; cbn; try discriminate. now intros [= -> <-]. Qed.
Lemma rN_inv s n s' : rN s = Ok (n, s') -> exists z, fst s = TZ z :: fst s' /\ n = Z.to_nat z.
Proof. unfold rN. intros H. apply good_bind_inv in H as (z & s1 & H1 & H2). apply rZ_inv in H1. cbn in H2. injection H2 as <- <-. eauto. Qed.
Lemma rB_inv s z s' : rB s = Ok (z, s') -> fst s = TB z :: fst s'.
Proof. destruct s as [[|[]] o]; cbn; try discriminate. now intros [= -> <-]. Qed.
Lemma rS_inv s z s' : rS s = Ok (z, s') -> fst s = TS z :: fst s'.
Proof. destruct s as [[|[]] o]; cbn; try discriminate. now intros [= -> <-]. Qed.
Lemma loaded_tail f s : loadFrom f = Ok s ->
  exists a p b1 b2 z1 b3 z2 z3 rest, f = a ++ TS p :: TB b1 :: TB b2 :: TZ z1 :: TB b3 :: TZ z2 :: TZ z3 :: rest.
Proof.
  unfold loadFrom. destruct (rSnn (f, None)) as [[x s']|m|] eqn:E; try discriminate. intros _.
  unfold rSnn in E.
  repeat (apply good_bind_inv in E; destruct E as (? & ? & ?H & E)).
  apply rN_inv in H10 as (? & H10 & _). apply rZ_inv in H9. apply rB_inv in H8. apply rN_inv in H7 as (? & H7 & _). apply rB_inv in H6. apply rB_inv in H5. apply rS_inv in H4.
  apply good_split in H; [|apply good_Stats]. apply good_split in H0; [|auto]. apply good_split in H1; [|auto]. apply good_split in H2; [|auto]. apply good_split in H3; [|auto].
  destruct H as [c0 H], H0 as [c1 H0], H1 as [c2 H1], H2 as [c3 H2], H3 as [c4 H3]. cbn [fst] in H.
  rewrite H, H0, H1, H2, H3, H4, H5, H6, H7, H8, H9, H10.
  exists (c0 ++ c1 ++ c2 ++ c3 ++ c4). do 8 eexists. rewrite <- !app_assoc. reflexivity.
Qed.
Lemma load_total f : loadFrom f <> UB.
Proof. unfold loadFrom. pose proof (good_Snn (f, None)) as G. destruct (rSnn (f, None)) as [[x s']|m|]; [discriminate|discriminate|easy]. Qed.

(* a file has one text in it *)
Definition no_text (t : token) : Prop := match t with TS _ => False | _ => True end.
Definition plain (w : W) : Prop := forall b, Forall no_text (fst (w b)).
Lemma plain_nil : plain wnil. Proof. intros b. constructor. Qed.
Lemma plain_1 t : no_text t -> plain (w1 t). Proof. intros H b. now repeat constructor. Qed.
Lemma plain_seq a b : plain a -> plain b -> plain (wseq a b).
Proof.
  intros Ha Hb s. unfold wseq. specialize (Ha s). destruct (a s) as [x s1]. specialize (Hb s1). destruct (b s1) as [y s2]. cbn in *. apply Forall_app. now split.
Qed.
Lemma plain_list {A} (w : A -> W) l : (forall a, plain (w a)) -> plain (wlist w l).
Proof. intros H. unfold wlist. apply plain_seq; [now apply plain_1|]. induction l; cbn; [apply plain_nil|now apply plain_seq]. Qed.
Lemma plain_F x : plain (wF x). Proof. now apply plain_1. Qed.
Lemma plain_N x : plain (wN x). Proof. now apply plain_1. Qed.
Lemma plain_Z x : plain (wZ x). Proof. now apply plain_1. Qed.
Lemma plain_B x : plain (wB x). Proof. now apply plain_1. Qed.
Lemma plain_Opt o : plain (wOpt o). Proof. intros []; unfold wOpt; repeat constructor. Qed.
Hint Resolve plain_nil plain_F plain_N plain_Z plain_B plain_Opt : core.
Ltac pl := repeat first [solve [auto] | apply plain_list; intro | apply plain_seq].
Lemma plain_Circ c : plain (wCirc c). Proof. unfold wCirc. pl. Qed.
Hint Resolve plain_Circ : core.
Lemma plain_Neuron o n : plain (wNeuron o n). Proof. unfold wNeuron. pl. Qed.
Hint Resolve plain_Neuron : core.
Lemma plain_RNeuron o n : plain (wRNeuron o n). Proof. unfold wRNeuron. pl. Qed.
Hint Resolve plain_RNeuron : core.
Lemma plain_GNeuron o n : plain (wGNeuron o n). Proof. unfold wGNeuron. pl. Qed.
Lemma plain_LOpt l p : plain (wLOpt l p). Proof. destruct p; unfold wLOpt; pl. Qed.
Lemma plain_Filter k f : plain (wFilter k f). Proof. unfold wFilter. pl. destruct (is_pool k); pl. Qed.
Hint Resolve plain_GNeuron plain_LOpt plain_Filter : core.
Lemma plain_Layer o l a : plain (wLayer o l a). Proof. unfold wLayer. destruct (l_body a); pl. Qed.
Hint Resolve plain_Layer : core.
Lemma plain_Layers o ls : forall l, plain (wLayers o l ls). Proof. induction ls; intros l; cbn; pl. Qed.
Hint Resolve plain_Layers : core.
Lemma plain_Cluster c : plain (wCluster c). Proof. unfold wCluster. pl. Qed.
Hint Resolve plain_Cluster : core.
Lemma plain_Stats s : plain (wStats s). Proof. unfold wStats. pl. Qed.
Definition ending (s : Snn) : list token :=
  [TS (sn_path s); TB (sn_auto s); TB (sn_want s); TZ (Z.of_nat (sn_index s)); TB (sn_idle s); TZ (sn_epoch s); TZ (Z.of_nat (sn_ntrain s))].
Lemma wseq_assoc a b c s : wseq a (wseq b c) s = wseq (wseq a b) c s.
Proof. unfold wseq. destruct (a s) as [x s1]. destruct (b s1) as [y s2]. destruct (c s2) as [z s3]. now rewrite app_assoc. Qed.
Lemma wseq_fst a b s : fst (wseq a b s) = fst (a s) ++ fst (b (snd (a s))).
Proof. unfold wseq. destruct (a s) as [x s1]. cbn. now destruct (b s1). Qed.
Lemma file_shape s : exists pre, Forall no_text pre /\ file_of s = pre ++ ending s.
Proof.
  unfold file_of, wSnn. rewrite !wseq_fst. cbn [fst snd w1 wB wN wZ].
  set (A := fst (wStats _ _)). set (B := fst (wLayers _ _ _ _)). set (C := fst (wOpt _ _)).
  assert (HA : Forall no_text A) by apply plain_Stats. assert (HB : Forall no_text B) by apply plain_Layers. assert (HC : Forall no_text C) by apply plain_Opt.
  eexists (A ++ [TZ _] ++ [TZ _] ++ B ++ C). split.
  - repeat (apply Forall_app; split); auto; repeat constructor.
  - rewrite <- !app_assoc. reflexivity.
Qed.

Lemma nth_text pre s rest k p : Forall no_text pre -> nth_error (pre ++ TS s :: rest) k = Some (TS p) -> Forall no_text rest -> k = List.length pre.
Proof.
  intros Hp E Hr. destruct (Nat.lt_total k (List.length pre)) as [L|[L|L]]; [|exact L|].
  - rewrite nth_error_app1 in E by lia. apply nth_error_In in E. rewrite Forall_forall in Hp. now apply Hp in E.
  - rewrite nth_error_app2 in E by lia. destruct (k - List.length pre) eqn:K; [lia|]. cbn in E. apply nth_error_In in E. rewrite Forall_forall in Hr. now apply Hr in E.
Qed.
(* a list that starts as the file of a network, except perhaps for its last value, and is no longer *)
Lemma prefix_throws s p q tail : file_of s = p ++ q -> (List.length tail <= 1)%nat -> (List.length p + List.length tail < List.length (file_of s))%nat ->
  exists m, loadFrom (p ++ tail) = Throw m.
Proof.
  intros E Ht L. destruct (loadFrom (p ++ tail)) as [x|m|] eqn:D; [exfalso| eauto| now apply load_total in D].
  apply loaded_tail in D as (a & s0 & b1 & b2 & z1 & b3 & z2 & z3 & rest & D).
  destruct (file_shape s) as (pre & Hp & Ef).
  assert (La : (List.length a + 7 <= List.length p + List.length tail)%nat) by (rewrite <- app_length, D, app_length; cbn; lia).
  assert (X : nth_error (p ++ q) (List.length a) = Some (TS s0)).
  { rewrite nth_error_app1 by lia. rewrite <- (nth_error_app1 p tail) by lia. rewrite D, nth_error_app2, Nat.sub_diag by lia. reflexivity. }
  rewrite <- E, Ef in X. unfold ending in X. apply nth_text in X; [|exact Hp|repeat constructor].
  rewrite Ef in L. rewrite app_length in L. unfold ending in L. cbn in L. lia.
Qed.
Lemma cut_throws s p q : file_of s = p ++ q -> q <> [] -> exists m, loadFrom p = Throw m.
Proof.
  intros E H. rewrite <- (app_nil_r p). apply (prefix_throws s p q); [exact E|cbn; lia|]. rewrite E, app_length. cbn. destruct q; [easy|cbn; lia].
Qed.
Lemma inside_throws s p t q t' : file_of s = p ++ t :: q -> q <> [] -> exists m, loadFrom (p ++ [t']) = Throw m.
Proof.
  intros E H. apply (prefix_throws s p (t :: q)); [exact E|cbn; lia|]. rewrite E, app_length. destruct q; [easy|cbn; lia].
Qed.
End P.

Section Q.
Context {N : Num}.
(* the size of the last training set is not used by predictions, and set by trainings *)
Lemma computeOutput_size (s : Snn) k x t : computeOutput (with_ntrain s k) x t = match computeOutput s x t with Ok (o, s') => Ok (o, with_ntrain s' k) | Throw m => Throw m | UB => UB end.
Proof. unfold computeOutput. destruct s as [n ? ? ? ? ? ? ? ?]. cbn. now destruct (net_output n x t) as [[o n']|m|]. Qed.
Lemma train_size fuel env w b f (s : Snn) k d : train fuel env w b f (with_ntrain s k) d = train fuel env w b f s d.
Proof. destruct s. reflexivity. Qed.
Lemma lives_size acts : forall (s : Snn) k, lives (with_ntrain s k) acts = lives s acts.
Proof.
  induction acts as [|[x t|fuel env w b f d] acts IH]; intros s k; cbn [lives]; [reflexivity|..].
  - rewrite computeOutput_size. destruct (computeOutput s x t) as [(o & s')|m|]; cbn [bind]; [now rewrite IH|reflexivity..].
  - now rewrite train_size.
Qed.
(* the last value of the file *)
Lemma file_last (s : Snn) p t : file_of s = p ++ [t] -> t = TZ (Z.of_nat (sn_ntrain s)) /\ forall k, file_of (with_ntrain s k) = p ++ [TZ (Z.of_nat k)].
Proof.
  assert (X : exists q, forall k, file_of (with_ntrain s k) = q ++ [TZ (Z.of_nat k)]).
  { unfold file_of, wSnn. destruct s as [n st want idle i e z au pa]. cbn [with_ntrain sn_net sn_stats sn_want sn_idle sn_index sn_epoch sn_ntrain sn_auto sn_path].
    set (A := fst (wStats st false)). set (B := wLayers (nn_opt n) 0 (nn_layers n)). set (C := wOpt (nn_opt n)).
    eexists (A ++ [TZ _] ++ [TZ _] ++ fst (B (snd (wStats st false))) ++ fst (C (snd (B (snd (wStats st false))))) ++ [TS _; TB _; TB _; TZ _; TB _; TZ _]).
    intros k. rewrite !wseq_fst. cbn [fst snd w1 wB wN wZ]. fold A. rewrite <- !app_assoc. reflexivity. }
  destruct X as [q Hq]. intros E. assert (Es : with_ntrain s (sn_ntrain s) = s) by now destruct s. pose proof (Hq (sn_ntrain s)) as E1. rewrite Es, E in E1.
  apply app_inj_tail in E1 as [-> ->]. auto.
Qed.
Lemma numbers_size (s : Snn) k : snn_numbers (with_ntrain s k) = snn_numbers s. Proof. now destruct s. Qed.
Lemma loaded_size (s : Snn) k : all_finite (sgd_numbers (nn_opt (sn_net s))) ->
  loadFrom (file_of (with_ntrain s k)) = match loadFrom (file_of s) with Ok s' => Ok (with_ntrain s' k) | x => x end.
Proof.
  intros H. rewrite (load_exact s H), load_exact, numbers_size by (destruct s; exact H). destruct (forallb ffinite (snn_numbers s)); [|reflexivity]. now destruct s.
Qed.
Lemma digits_natural z k : (0 <= z)%Z -> exists n, (z / 10 ^ k)%Z = Z.of_nat n.
Proof.
  intros H. exists (Z.to_nat (z / 10 ^ k)). symmetry. apply Z2Nat.id. destruct (Z_lt_le_dec k 0) as [L|L]; [rewrite Z.pow_neg_r, Zdiv_0_r by exact L; lia|].
  apply Z.div_pos; [exact H|]. now apply Z.pow_pos_nonneg.
Qed.
(* a file cut short is read back only if the cut is inside the last number *)
Lemma cut_loads (s : Snn) f : all_finite (sgd_numbers (nn_opt (sn_net s))) -> cut_short (file_of s) f ->
  (exists m, loadFrom f = Throw m) \/ exists k s1, loadFrom (file_of s) = Ok s1 /\ loadFrom f = Ok (with_ntrain s1 k).
Proof.
  intros Ho [p q E Hq|p t q t' E Hc].
  - left. now apply (cut_throws s p q).
  - destruct q as [|u q]; [|left; now apply (inside_throws s p t (u :: q))].
    destruct (file_last s p t E) as [-> Hk]. inversion Hc as [z k Hz E1 E2|z z' Hz E1 E2| |]; subst; [|lia].
    destruct (digits_natural _ k Hz) as [n En]. rewrite En, <- (Hk n), (loaded_size s n Ho).
    destruct (loadFrom (file_of s)) as [s1|m|] eqn:El; [right; eauto|left; eauto|now apply load_total in El].
Qed.
(* the content of the file after the first events *)
Lemma written_first path before log n : (n <= List.length log)%nat ->
  (never_saved path log n /\ written path before (firstn n log) = before) \/ exists s, latest path log n s /\ written path before (firstn n log) = Some (file_of s).
Proof.
  induction n as [|n IH]; intros L; [left; split; [intros j t Hj; lia|reflexivity]|].
  assert (Ln : (n < List.length log)%nat) by lia. apply nth_error_Some in Ln. destruct (nth_error log n) as [e|] eqn:En; [|easy]. clear Ln.
  assert (Ef : firstn (S n) log = firstn n log ++ [e]).
  { rewrite <- (firstn_skipn n log) at 1. rewrite firstn_app, firstn_firstn, firstn_length_le by lia. replace (min (S n) n) with n by lia. f_equal. replace (S n - n)%nat with 1%nat by lia.
    pose proof (firstn_skipn n log) as X. rewrite <- X in En. rewrite nth_error_app2, firstn_length_le, Nat.sub_diag in En by (rewrite ?firstn_length_le; lia).
    destruct (skipn n log); cbn in En |- *; congruence. }
  rewrite Ef. unfold written. rewrite fold_left_app. cbn [fold_left]. fold (written path before (firstn n log)).
  assert (K : (exists s, e = Saved path s) \/ (forall s, e <> Saved path s) /\
    match e with Saved p s => if String.eqb p path then Some (file_of s) else written path before (firstn n log) | _ => written path before (firstn n log) end = written path before (firstn n log)).
  { destruct e as [|i l x y s|s|p s]; try (right; split; [discriminate|reflexivity]). destruct (String.eqb_spec p path) as [->|D]; [left; eauto|right; split; [congruence|reflexivity]]. }
  destruct K as [[s ->]|[Hne Hw]].
  - rewrite String.eqb_refl. right. exists s. split; [|reflexivity]. exists n. split; [lia|]. split; [exact En|]. intros j t Hj. lia.
  - rewrite Hw. destruct (IH ltac:(lia)) as [[H1 H2]|(s & (k & Hk & Hs & Hj) & H2)].
    + left. split; [|exact H2]. intros j t Hlt E. destruct (Nat.eq_dec j n) as [->|D]; [rewrite En in E; injection E as E; now apply (Hne t)|]. apply (H1 j t); [lia|exact E].
    + right. exists s. split; [|exact H2]. exists k. split; [lia|]. split; [exact Hs|]. intros j t Hlt E.
      destruct (Nat.eq_dec j n) as [->|D]; [rewrite En in E; injection E as E; now apply (Hne t)|]. apply (Hj j t); [lia|exact E].
Qed.
End Q.

Section T.
Context {N : Num}.
(* all the saves of a training go to the same file *)
Definition saved_to (p : string) (e : event) : Prop := match e with Saved q s => q = p /\ sn_path s = p | _ => True end.
Definition homely (p : string) (r : Run) : Prop := sn_path (r_snn r) = p /\ Forall (saved_to p) (r_log r).
Lemma homely_log p (r : Run) s l : homely p r -> sn_path s = sn_path (r_snn r) -> Forall (saved_to p) l -> sn_path s = p /\ Forall (saved_to p) (r_log r ++ l).
Proof. intros [H1 H2] E H3. split; [congruence|]. apply Forall_app. auto. Qed.
Lemma evaluate_homely p env r r' : evaluate env r = Ok r' -> homely p r -> homely p r'.
Proof.
  intros H Hr. apply evaluate_keeps in H as (K & _ & _ & s & El & Es). destruct K as (_ & _ & _ & K & _). subst s. unfold homely.
  destruct El as [-> | ->]; (apply homely_log; [exact Hr|exact K|]); repeat constructor; cbn; destruct Hr; congruence.
Qed.
Lemma trainingTurn_homely p env b r r' : trainingTurn env b r = Ok r' -> homely p r -> homely p r'.
Proof.
  unfold trainingTurn. intros H Hr. apply bind_Ok_inv in H as (need & Hn & H). destruct need; HistProofs.binds H; injection H as <-;
    (apply homely_log; [exact Hr|reflexivity|repeat constructor]).
Qed.
Lemma epoch_homely p env w b : forall fuel r early r', epochLoop fuel env w b r = Some (Ok (early, r')) -> homely p r -> homely p r'.
Proof.
  induction fuel as [|fuel IH]; intros r early r' H Hr; [discriminate|]. cbn [epochLoop] in H.
  destruct (_ <=? _); [|injection H as _ <-; exact Hr].
  destruct (continueTraining env w r) as [go r1] eqn:Ec. apply continue_keeps_nan in Ec as (_ & El & _ & _ & _ & _ & _ & _ & _ & _ & Ep & _).
  assert (H1 : homely p r1) by (unfold homely in *; rewrite El, Ep; exact Hr).
  destruct go; [|injection H as _ <-; exact H1].
  destruct (nn_nan (sn_net (r_snn r1))); [injection H as _ <-; exact H1|].
  destruct (trainingTurn env b r1) as [r2|x|] eqn:Et; [|discriminate H|discriminate H]. apply (trainingTurn_homely p) in Et; [|exact H1].
  apply IH in H; [exact H|exact Et].
Qed.
Lemma training_homely p env w b f : forall fuel r r', trainingLoop fuel env w b f r = Some (Ok r') -> homely p r -> homely p r'.
Proof.
  induction fuel as [|fuel IH]; intros r r' H Hr; [discriminate|]. cbn [trainingLoop] in H.
  destruct (continueTraining env w r) as [go r1] eqn:Ec. apply continue_keeps_nan in Ec as (_ & El & _ & _ & _ & _ & _ & _ & _ & _ & Ep & _).
  assert (H1 : homely p r1) by (unfold homely in *; rewrite El, Ep; exact Hr).
  destruct go; [|injection H as <-; exact H1].
  destruct (shuffle (e_rng env (r_checks r1)) (r_data r1)) as [d'|x|]; cbn [bind andThen] in H; [|discriminate H|discriminate H].
  destruct (epochLoop (S fuel) env w b _) as [[[early r3]|x|]|] eqn:Ee; try discriminate H.
  apply (epoch_homely p) in Ee; [|apply homely_log; [exact H1|reflexivity|repeat constructor]].
  destruct early; [injection H as <-; exact Ee|].
  match type of H with andThen ?t _ = _ => destruct t as [r4|y|] eqn:Ev; cbn [andThen] in H; [|discriminate H|discriminate H] end.
  apply IH in H; [exact H|]. change (homely p r4). destruct (_ && _); [exact (evaluate_homely _ _ _ _ Ev Ee)|injection Ev as <-; exact Ee].
Qed.
Lemma train_homely fuel env w b f s d r : train fuel env w b f s d = Some (Ok r) -> homely (sn_path s) r.
Proof.
  intros H. unfold train in H. destruct (validData s d b); try discriminate. destruct (negb (sn_idle s)); [discriminate|]. unfold trainSync in H.
  set (r0 := upd (mkRun _ _ _ _) _) in H. assert (H0 : homely (sn_path s) r0) by (split; [reflexivity|constructor]).
  match type of H with andThen ?t _ = _ => destruct t as [r1|y|] eqn:Ev; cbn [andThen] in H; [|discriminate H|discriminate H] end.
  apply training_homely with (p := sn_path s) in H; [exact H|]. change (homely (sn_path s) r1).
  destruct (0 <? f)%Z; [exact (evaluate_homely _ _ _ _ Ev H0)|injection Ev as <-; exact H0].
Qed.
End T.
