(* C71: neurons, layers and networks, in binary32 and with real numbers side by side. *)
From Coq Require Import Reals Lra Lia.
From Flocq Require Import Core.Core.
From Verif Require Import Base Num NumOrder ActModel ActProofs NeuronModel LayerModel NetModel Float32 StatReal F1Spec F1Float SoftProps FiniteSpec FiniteProofs FiniteLayers AccSpec AccProofs.
Local Open Scope R_scope.
Local Open Scope outcome_scope.

(* a finite float up to B, at most d away from r *)
Definition close (B d : R) (x : f32) (r : R) : Prop := exists v, fin32 x v /\ Rabs (v - r) <= d /\ Rabs v <= B.
Lemma close_le B B' d d' x r : B <= B' -> d <= d' -> close B d x r -> close B' d' x r.
Proof. intros H1 H2 (v & A & C & D). exists v. split; [exact A|]. split; lra. Qed.
Lemma close_lists B d x X : Forall2 (close B d) x X -> exists xs, Forall2 fin32 x xs /\ Forall2 (fun a b => Rabs (a - b) <= d) xs X /\ Forall (fun a => Rabs a <= B) xs.
Proof.
  induction 1 as [|y Y x X (v & A & C & D) _ (xs & H1 & H2 & H3)]; [exists []; repeat split; constructor|]. exists (v :: xs). repeat split; constructor; auto.
Qed.
Lemma sum_error_le n m T : (n <= m)%nat -> 0 <= T -> sum_error n T <= sum_error m T.
Proof.
  intros H HT. unfold sum_error. assert (U := u24_pos). assert (P := tiny_pos). apply Rmult_le_compat_r; [nra|]. apply le_INR in H. lra.
Qed.
Lemma sum_error_pos n T : 0 <= T -> 0 <= sum_error n T.
Proof. intros HT. unfold sum_error. assert (U := u24_pos). assert (P := tiny_pos). assert (Q := pos_INR n). apply Rmult_le_pos; [lra|nra]. Qed.
Lemma combine_le {A B} (x : list A) (y : list B) : (List.length (combine x y) <= List.length x)%nat.
Proof. rewrite combine_length. lia. Qed.
Lemma F2_len {A B} (P : A -> B -> Prop) l m : Forall2 P l m -> List.length l = List.length m.
Proof. induction 1; cbn; congruence. Qed.
Lemma F2_nth {A B} (P : A -> B -> Prop) l m i a b : Forall2 P l m -> nth_error l i = Some a -> nth_error m i = Some b -> P a b.
Proof. intros H. revert i. induction H; intros [|i] Ha Hb; cbn in *; try discriminate; [congruence|eauto]. Qed.
Lemma lget2 {A B} (P : A -> B -> Prop) l m i a b : Forall2 P l m -> lget l i = Ok a -> lget m i = Ok b -> P a b.
Proof. unfold lget. intros H. destruct (nth_error l i) eqn:E1; [|discriminate]. destruct (nth_error m i) eqn:E2; [|discriminate]. intros [= <-] [= <-]. eapply F2_nth; eauto. Qed.
Lemma lgetZ2 {A B} (P : A -> B -> Prop) l m i a b : Forall2 P l m -> lgetZ l i = Ok a -> lgetZ m i = Ok b -> P a b.
Proof. unfold lgetZ. destruct (i <? 0)%Z; [discriminate|]. apply lget2. Qed.
Lemma each2 {A B C D} (f : nat -> A -> outcome (C * A)) (g : nat -> B -> outcome (D * B)) (P : A -> B -> Prop) (Q : C -> D -> Prop) :
  (forall i a b c d a' b', P a b -> f i a = Ok (c, a') -> g i b = Ok (d, b') -> Q c d /\ P a' b') ->
  forall l m i os ps l' m', Forall2 P l m -> each_from f i l = Ok (os, l') -> each_from g i m = Ok (ps, m') -> Forall2 Q os ps /\ Forall2 P l' m'.
Proof.
  intros Hf l m i os ps l' m' H. revert i os ps l' m'. induction H as [|a b l m Hab _ IH]; intros i os ps l' m' H1 H2; cbn [each_from] in H1, H2.
  - injection H1 as <- <-. injection H2 as <- <-. split; constructor.
  - apply bind_Ok_inv in H1 as ([c a'] & E1 & H1). apply bind_Ok_inv in H1 as ([os' l''] & E2 & H1). apply bind_Ok_inv in H2 as ([d b'] & E3 & H2). apply bind_Ok_inv in H2 as ([ps' m''] & E4 & H2). cbn [fst snd] in *.
    apply Ok_inj in H1, H2. inversion H1; inversion H2; subst. destruct (Hf _ _ _ _ _ _ _ Hab E1 E3) as (Q1 & P1). destruct (IH _ _ _ _ _ E2 E4) as (Q2 & P2). split; now constructor.
Qed.
Lemma omap2 {A B C D} (f : A -> outcome C) (g : B -> outcome D) (P : A -> B -> Prop) (Q : C -> D -> Prop) : (forall a b c d, P a b -> f a = Ok c -> g b = Ok d -> Q c d) ->
  forall l m r s, Forall2 P l m -> omap f l = Ok r -> omap g m = Ok s -> Forall2 Q r s.
Proof.
  intros Hf l m r s H. revert r s. induction H as [|a b l m Hab _ IH]; intros r s H1 H2; cbn [omap] in H1, H2; [injection H1 as <-; injection H2 as <-; constructor|].
  apply bind_Ok_inv in H1 as (c & E1 & H1). apply bind_Ok_inv in H1 as (r' & E2 & H1). apply bind_Ok_inv in H2 as (d & E3 & H2). apply bind_Ok_inv in H2 as (s' & E4 & H2). apply Ok_inj in H1, H2. subst. constructor; eauto.
Qed.
Lemma F2_refl {A} (l : list A) : Forall2 eq l l.
Proof. induction l; constructor; auto. Qed.

Lemma lget_some {A} (l : list A) i a : lget l i = Ok a -> nth_error l i = Some a.
Proof. unfold lget. destruct (nth_error l i); [congruence|discriminate]. Qed.
Lemma pair_inj {A B} (a c : A) (b d : B) : Ok (a, b) = Ok (c, d) -> c = a /\ d = b.
Proof. intros [= -> ->]. auto. Qed.
Lemma dot_abs x w : Rabs (dot x w) <= adot x w.
Proof. unfold dot, adot. induction (combine x w) as [|p l IH]; [cbn; rewrite Rabs_R0; lra|]. cbn [map Rsum fold_right]. eapply Rle_trans; [apply Rabs_triang|]. unfold Rsum in IH. lra. Qed.
Lemma drop_pos a b c : 0 <= b -> a + b <= c -> a <= c. Proof. lra. Qed.
Section L.
Variables expf tanhf : f32 -> f32.
Notation N := (Num32 expf tanhf).
Variable delta : R.
Hypothesis HA : accurate delta tanhf.
Notation tn := (twin_neuron expf tanhf).

Section B.
Variables (nn : nat) (A B d : R).
Hypothesis Hnn : (Z.of_nat nn <= 2 ^ 22)%Z.
Hypothesis HA0 : 0 <= A.
Hypothesis HB1 : 1 <= B.
Hypothesis Hd0 : 0 <= d.
Hypothesis HAB : A * B <= bpow radix2 120.
Definition pair_ok (all : bool) (n : @Neuron N) (m : @Neuron RNum) : Prop :=
  tn n m /\ (List.length (@n_w RNum m) <= nn)%nat /\ Rsum (map Rabs (@n_w RNum m)) <= A /\ Rabs (@n_bias RNum m) <= 1 /\ (all = true -> flat_act (@n_act RNum m) = true).
Definition out_ok (all : bool) : f32 -> R -> Prop := close (if all then 1 else Rmax 1 (A * B + sum_error nn (A * B))) (A * d + sum_error nn (A * B) + (delta + 3 * u24)).
Lemma simple_close all (n n' : @Neuron N) (m m' : @Neuron RNum) (x : list f32) (X : list R) o O : pair_ok all n m -> Forall2 (close B d) x X -> @simple_output N n x = Ok (o, n') -> @simple_output RNum m X = Ok (O, m') -> out_ok all o O /\ pair_ok all n' m'.
Proof.
  intros ((Ta & Tp & Tw & Tb) & Pl & Pa & Pb & Pf) Hx H1 H2. destruct (close_lists _ _ _ _ Hx) as (xs & X1 & X2 & X3).
  unfold simple_output in H1, H2. apply bind_Ok_inv in H1 as (la & _ & H1). apply bind_Ok_inv in H1 as (t1 & Ht1 & H1). apply bind_Ok_inv in H1 as (wb & Hw1 & H1). apply bind_Ok_inv in H2 as (La & _ & H2). apply bind_Ok_inv in H2 as (t2 & Ht2 & H2). apply bind_Ok_inv in H2 as (Wb & Hw2 & H2).
  apply weighted_eq in Ht1, Ht2. change (@F N) with f32 in *. change (@F RNum) with R in *.
  apply pair_inj in H1 as (-> & ->). apply pair_inj in H2 as (-> & ->). cbv zeta.
  set (W := @n_w RNum m) in *. set (b := @n_bias RNum m) in *. assert (LX : List.length x = List.length X) by (eapply F2_len; eauto). assert (Lx : List.length x = List.length xs) by (eapply F2_len; eauto).
  rewrite LX in Hw1. assert (Wf : fin32 wb Wb) by exact (lget2 _ _ _ _ _ _ Tw Hw1 Hw2). assert (Li : (List.length X < List.length W)%nat) by exact (lget_lt _ _ _ Hw2).
  assert (Sp : Rsum (map Rabs (firstn (List.length X) W)) + Rabs Wb <= A). { eapply Rle_trans; [apply sum_split|exact Pa]. exact (lget_some _ _ _ Hw2). }
  assert (Lz : (Z.of_nat (List.length X) <= 2 ^ 22)%Z). { eapply Z.le_trans; [|exact Hnn]. apply Nat2Z.inj_le. eapply Nat.le_trans; [apply Nat.lt_le_incl; exact Li|exact Pl]. }
  assert (Lz' : (Z.of_nat (List.length X) < 2 ^ 22)%Z). { eapply Z.lt_le_trans; [|exact Hnn]. apply Nat2Z.inj_lt. eapply Nat.lt_le_trans; [exact Li|exact Pl]. }
  assert (Ln : (S (List.length X) <= nn)%nat) by (eapply Nat.le_trans; [exact Li|exact Pl]).
  set (T := A * B) in *. assert (T0 : 0 <= T) by (unfold T; apply Rmult_le_pos; lra). assert (B121 : bpow radix2 120 <= bpow radix2 121) by (apply bpow_le; lia).
  assert (S0 : 0 <= Rsum (map Rabs (firstn (List.length X) W))). { clear. induction (firstn (List.length X) W) as [|a l IH]; [cbn; lra|]. cbn [map Rsum fold_right]. assert (P := Rabs_pos a). unfold Rsum in IH. lra. }
  assert (Ad := adot_le B xs W ltac:(lra) X3). replace (List.length xs) with (List.length X) in Ad by congruence.
  assert (Wbb : Rabs (Wb * b) <= Rabs Wb * B). { rewrite Rabs_mult. apply Rmult_le_compat_l; [apply Rabs_pos|]. unfold b in *. lra. }
  assert (Tot : adot xs W + Rabs (Wb * b) <= T). { eapply Rle_trans; [apply Rplus_le_compat; [exact Ad|exact Wbb]|]. rewrite <- Rmult_plus_distr_r. apply Rmult_le_compat_r; [lra|exact Sp]. }
  assert (Z0 : fin32 (@fzero N) 0) by (apply (fin32_fofZ expf tanhf 0); lia).
  destruct (fold_acc expf tanhf T ltac:(lra) x xs (@n_w N n) W 0 (@fzero N) 0 0 X1 Tw Z0) as (v1 & F1 & G1).
  { rewrite Nat.add_0_l. rewrite LX. exact Lz. } { rewrite Rminus_0_r, Rabs_R0. apply sum_error_pos. exact T0. } { rewrite Rabs_R0. assert (P := Rabs_pos (Wb * b)). lra. }
  change (@F N) with f32 in *. rewrite <- Ht1 in F1. rewrite Rplus_0_l in G1. rewrite Nat.add_0_l in G1. assert (Cl : (List.length (combine x (@n_w N n)) <= List.length X)%nat) by (rewrite <- LX; apply combine_le).
  assert (Dab : Rabs (dot xs W) <= adot xs W). { apply dot_abs. }
  assert (P1 := Rabs_pos (Wb * b)). assert (P2 := adot_pos xs W). assert (P3 := Rabs_triang (dot xs W) (Wb * b)).
  assert (Lc : (Z.of_nat (List.length (combine x (@n_w N n))) < 2 ^ 22)%Z) by (eapply Z.le_lt_trans; [apply Nat2Z.inj_le; exact Cl|exact Lz']).
  destruct (mul_add_acc expf tanhf T (List.length (combine x (@n_w N n))) t1 v1 (dot xs W) wb (@n_bias N n) Wb b F1 Wf Tb ltac:(lra) Lc G1 ltac:(lra) ltac:(lra) ltac:(lra)) as (v2 & F2 & G2).
  assert (Se : sum_error (S (List.length (combine x (@n_w N n)))) T <= sum_error nn T) by (apply sum_error_le; [eapply Nat.le_trans; [apply le_n_S; exact Cl|exact Ln]|exact T0]).
  assert (Et2 : t2 = dot X W). { rewrite Ht2. assert (Z1 : @fzero RNum = 0) by (unfold fzero; rewrite RNum_fofZ; reflexivity). rewrite Z1. etransitivity; [apply fold_dot|ring]. }
  assert (Dd := dot_diff d xs X W Hd0 X2). replace (List.length xs) with (List.length X) in Dd by congruence. assert (P4 := Rabs_pos Wb).
  assert (Dd' : Rabs (dot xs W - dot X W) <= A * d). { eapply Rle_trans; [exact Dd|]. apply Rmult_le_compat_r; [exact Hd0|exact (drop_pos _ _ _ P4 Sp)]. }
  assert (V : Rabs (v2 - (t2 + Wb * b)) <= A * d + sum_error nn T). { rewrite Et2. replace (v2 - (dot X W + Wb * b)) with ((v2 - (dot xs W + Wb * b)) + (dot xs W - dot X W)) by ring. eapply Rle_trans; [apply Rabs_triang|]. lra. }
  assert (V2 : Rabs v2 <= T + sum_error nn T). { replace v2 with ((v2 - (dot xs W + Wb * b)) + (dot xs W + Wb * b)) by ring. eapply Rle_trans; [apply Rabs_triang|]. lra. }
  rewrite Ta in Tp. destruct (act_near expf tanhf delta HA (@n_act RNum m) _ _ _ _ Tp F2 V) as (q & Q1 & Q2 & Q3). split.
  - rewrite Ta. exists q. split; [exact Q1|]. split; [exact Q2|]. destruct all.
    + rewrite (Pf eq_refl) in Q3. exact Q3.
    + destruct (flat_act (@n_act RNum m)); [eapply Rle_trans; [exact Q3|apply Rmax_l]|]. eapply Rle_trans; [exact Q3|]. eapply Rle_trans; [exact V2|apply Rmax_r].
  - rewrite <- Ta in Tp. split; [exact (conj Ta (conj Tp (conj Tw Tb)))|]. exact (conj Pl (conj Pa (conj Pb Pf))).
Qed.

Lemma ofold2 {S1 S2 C} (f : S1 -> C -> outcome S1) (g : S2 -> C -> outcome S2) (P : S1 -> S2 -> Prop) : (forall c a b a' b', P a b -> f a c = Ok a' -> g b c = Ok b' -> P a' b') ->
  forall l a b a' b', P a b -> ofold f l a = Ok a' -> ofold g l b = Ok b' -> P a' b'.
Proof.
  intros Hf. induction l as [|c l IH]; intros a b a' b' H H1 H2; cbn [ofold] in H1, H2; [apply Ok_inj in H1, H2; now subst|].
  apply bind_Ok_inv in H1 as (a1 & E1 & H1). apply bind_Ok_inv in H2 as (b1 & E2 & H2). eauto.
Qed.
Lemma zero_R : @fzero RNum = 0. Proof. unfold fzero. rewrite RNum_fofZ. reflexivity. Qed.
Lemma close_zero B' d' : 0 <= B' -> 0 <= d' -> close B' d' (@fzero N) (@fzero RNum).
Proof. intros H1 H2. rewrite zero_R. exists 0. split; [apply (fin32_fofZ expf tanhf 0); lia|]. rewrite Rminus_0_r, Rabs_R0. auto. Qed.
Lemma fill_close B' d' n n' (v : list f32) (V : list R) r Rr : 0 <= B' -> 0 <= d' -> n = n' -> Forall2 (close B' d') v V -> @fill N n v = Ok r -> @fill RNum n' V = Ok Rr -> Forall2 (close B' d') r Rr.
Proof.
  intros H1 H2 <- Hv. assert (L := F2_len _ _ _ Hv). unfold fill. change (@F N) with f32 in *. change (@F RNum) with R in *. rewrite <- L. destruct (List.length v <=? n)%nat; [|discriminate]. intros E1 E2. apply Ok_inj in E1, E2. subst r Rr. apply Forall2_app; [exact Hv|].
  generalize (n - List.length v)%nat. induction n0; cbn [repeat]; constructor; auto. now apply close_zero.
Qed.
Lemma conv_win f f' (x win : list f32) (X Win : list R) row : f_nin f = f_nin f' -> Forall2 (close B d) x X -> @convWindow N f x row = Ok win -> @convWindow RNum f' X row = Ok Win -> Forall2 (close B d) win Win.
Proof.
  intros En Hx H1 H2. unfold convWindow in H1, H2. rewrite En in H1. eapply (omap2 _ _ eq); [|apply F2_refl|exact H1|exact H2]. intros a b c e <- G1 G2. cbv beta in *. apply bind_Ok_inv in G1 as (i & E1 & G1). apply bind_Ok_inv in G2 as (j & E2 & G2). assert (i = j) by congruence. subst j. eapply lgetZ2; eauto.
Qed.
Lemma loc_win f f' (x win : list f32) (X Win : list R) row : f_nin f = f_nin f' -> Forall2 (close B d) x X -> @locWindow N f x row = Ok win -> @locWindow RNum f' X row = Ok Win -> Forall2 (close B d) win Win.
Proof.
  intros En Hx H1 H2. unfold locWindow in H1, H2. rewrite En in H1. eapply (omap2 _ _ eq); [|apply F2_refl|exact H1|exact H2]. intros a b c e <- G1 G2. cbv beta in *. apply bind_Ok_inv in G1 as (i & E1 & G1). apply bind_Ok_inv in G2 as (j & E2 & G2). assert (i = j) by congruence. subst j.
  destruct (0 <=? i)%Z; [eapply lgetZ2; eauto|]. apply Ok_inj in G1, G2. subst. apply close_zero; lra.
Qed.
Lemma err_pos : 0 <= A * d + sum_error nn (A * B) + (delta + 3 * u24).
Proof.
  assert (U := u24_pos). assert (D := delta_pos expf tanhf delta HA). assert (T0 : 0 <= A * B) by (apply Rmult_le_pos; lra). assert (Q := sum_error_pos nn _ T0). assert (0 <= A * d) by (apply Rmult_le_pos; lra). lra.
Qed.
Lemma size_pos (all : bool) : 1 <= (if all then 1 else Rmax 1 (A * B + sum_error nn (A * B))).
Proof. destruct all; [lra|apply Rmax_l]. Qed.
Lemma conv_close all f f' (ns ns' : list (@Neuron N)) (ms ms' : list (@Neuron RNum)) (x o : list f32) (X O : list R) : f_nin f = f_nin f' -> f_index f = f_index f' -> f_kernels f = f_kernels f' ->
  Forall2 (pair_ok all) ns ms -> Forall2 (close B d) x X -> @conv_output N f ns x = Ok (o, ns') -> @conv_output RNum f' ms X = Ok (O, ms') -> Forall2 (out_ok all) o O /\ Forall2 (pair_ok all) ns' ms'.
Proof.
  intros E1 E2 E3 Hn Hx H1 H2. unfold conv_output in H1, H2. apply bind_Ok_inv in H1 as ([o1 n1] & F1 & H1). apply bind_Ok_inv in H1 as (o2 & G1 & H1). apply bind_Ok_inv in H2 as ([O1 m1] & F2 & H2). apply bind_Ok_inv in H2 as (O2 & G2 & H2).
  apply pair_inj in H1 as (-> & ->). apply pair_inj in H2 as (-> & ->). rewrite <- E2 in F2.
  assert (P : Forall2 (out_ok all) (fst (o1, n1)) (fst (O1, m1)) /\ Forall2 (pair_ok all) (snd (o1, n1)) (snd (O1, m1))).
  { eapply (ofold2 _ _ (fun (s : list (@F N) * list (@Neuron N)) (t : list (@F RNum) * list (@Neuron RNum)) => Forall2 (out_ok all) (fst s) (fst t) /\ Forall2 (pair_ok all) (snd s) (snd t))); [| |exact F1|exact F2]; [|split; [constructor|exact Hn]].
    intros row s t s' t' (P1 & P2) K1 K2. cbv beta in K1, K2. apply bind_Ok_inv in K1 as (win & W1 & K1). apply bind_Ok_inv in K1 as ([q1 r1] & Q1 & K1). apply bind_Ok_inv in K2 as (Win & W2 & K2). apply bind_Ok_inv in K2 as ([q2 r2] & Q2 & K2). apply Ok_inj in K1, K2. subst s' t'. cbn [fst snd].
    assert (HW := conv_win _ _ _ _ _ _ _ E1 Hx W1 W2). destruct (each2 _ _ (pair_ok all) (out_ok all) (fun i a b c e a' b' Hab Ha Hb => simple_close all a a' b b' win Win c e Hab HW Ha Hb) _ _ _ _ _ _ _ P2 Q1 Q2) as (R1 & R2). split; [|exact R2]. apply Forall2_app; [exact P1|exact R1]. }
  cbn [fst snd] in P. destruct P as (P1 & P2). split; [|exact P2]. eapply fill_close; [| |exact E3|exact P1|exact G1|exact G2]; [|apply err_pos]. assert (Q := size_pos all). lra.
Qed.
Lemma F2_firstn {T U} (P : T -> U -> Prop) l m k : Forall2 P l m -> Forall2 P (firstn k l) (firstn k m).
Proof. intros H. revert k. induction H; intros [|k]; cbn; constructor; auto. Qed.
Lemma F2_skipn {T U} (P : T -> U -> Prop) l m k : Forall2 P l m -> Forall2 P (skipn k l) (skipn k m).
Proof. intros H. revert k. induction H; intros [|k]; cbn; auto. Qed.
Lemma loc_close all f f' (ns ns' : list (@Neuron N)) (ms ms' : list (@Neuron RNum)) (x o : list f32) (X O : list R) : f_nin f = f_nin f' -> f_index f = f_index f' -> f_kernels f = f_kernels f' -> f_filters f = f_filters f' ->
  Forall2 (pair_ok all) ns ms -> Forall2 (close B d) x X -> @loc_output N f ns x = Ok (o, ns') -> @loc_output RNum f' ms X = Ok (O, ms') -> Forall2 (out_ok all) o O /\ Forall2 (pair_ok all) ns' ms'.
Proof.
  intros E1 E2 E3 E4 Hn Hx H1 H2. unfold loc_output in H1, H2. rewrite <- E2, <- E4 in H2. destruct (_ <? _)%nat in H1; [discriminate|]. destruct (_ <? _)%nat in H2; [discriminate|].
  apply bind_Ok_inv in H1 as (wins & W1 & H1). apply bind_Ok_inv in H1 as ([o1 n1] & F1 & H1). apply bind_Ok_inv in H1 as (o2 & G1 & H1). apply bind_Ok_inv in H2 as (Wins & W2 & H2). apply bind_Ok_inv in H2 as ([O1 m1] & F2 & H2). apply bind_Ok_inv in H2 as (O2 & G2 & H2).
  apply pair_inj in H1 as (-> & ->). apply pair_inj in H2 as (-> & ->).
  assert (HW : Forall2 (Forall2 (close B d)) wins Wins). { eapply (omap2 _ _ eq); [|apply F2_refl|exact W1|exact W2]. intros a b c e <- K1 K2. eapply loc_win; [exact E1|exact Hx|exact K1|exact K2]. }
  assert (P : Forall2 (out_ok all) o1 O1 /\ Forall2 (pair_ok all) n1 m1).
  { eapply (each2 _ _ (pair_ok all) (out_ok all)); [|apply F2_firstn; exact Hn|exact F1|exact F2]. intros i a b c e a' b' Hab Ha Hb. cbv beta in Ha, Hb. apply bind_Ok_inv in Ha as (u & U1 & Ha). apply bind_Ok_inv in Hb as (v & U2 & Hb). eapply simple_close; [exact Hab| |exact Ha|exact Hb]. exact (lget2 _ _ _ _ _ _ HW U1 U2). }
  destruct P as (P1 & P2). split; [|apply Forall2_app; [exact P2|apply F2_skipn; exact Hn]]. eapply fill_close; [| |exact E3|exact P1|exact G1|exact G2]; [|apply err_pos]. assert (Q := size_pos all). lra.
Qed.
(* the larger of two numbers *)
Lemma max_close a b A1 B2 : close B d a A1 -> close B d b B2 -> close B d (if @fgeb N a b then a else b) (if @fgeb RNum A1 B2 then A1 else B2).
Proof.
  intros (v & V1 & V2 & V3) (u & U1 & U2 & U3). assert (E : @fgeb N a b = Rle_bool u v) by (apply (fin32_le expf tanhf); assumption). rewrite E.
  assert (E' : @fgeb RNum A1 B2 = if Rle_dec B2 A1 then true else false) by reflexivity. rewrite E'. apply Rabs_le_inv in V2, U2.
  destruct (Rle_bool_spec u v); destruct (Rle_dec B2 A1); [exists v|exists v|exists u|exists u]; (split; [assumption|]); (split; [apply Rabs_le; lra|assumption]).
Qed.
Definition best_ok (x : list f32) (X : list R) (b c : Z) : Prop := (b = -1 /\ c = -1)%Z \/ (b <> -1 /\ c <> -1 /\ forall a e, lgetZ x b = Ok a -> lgetZ X c = Ok e -> close B d a e)%Z.
Lemma best_close f f' (x : list f32) (X : list R) row b c : f_nin f = f_nin f' -> Forall2 (close B d) x X -> @maxIndexOf N f x row = Ok b -> @maxIndexOf RNum f' X row = Ok c -> best_ok x X b c.
Proof.
  intros En Hx H1 H2. unfold maxIndexOf in H1, H2. rewrite <- En in H2. eapply (ofold2 _ _ (best_ok x X)); [| |exact H1|exact H2]; [|left; split; reflexivity].
  intros i b0 c0 b1 c1 Hb K1 K2. cbv beta in K1, K2. apply bind_Ok_inv in K1 as (j & J1 & K1). apply bind_Ok_inv in K2 as (j' & J2 & K2). assert (j = j') by congruence. subst j'. destruct (Z.leb_spec 0 j) as [Hj|Hj]; [|apply Ok_inj in K1, K2; now subst].
  destruct Hb as [(-> & ->)|(Nb & Nc & Hb)].
  - cbn in K1, K2. apply Ok_inj in K1, K2. subst. right. split; [lia|]. split; [lia|]. intros a e Ha He. exact (lgetZ2 _ _ _ _ _ _ Hx Ha He).
  - apply Z.eqb_neq in Nb, Nc. rewrite Nb in K1. rewrite Nc in K2. apply bind_Ok_inv in K1 as (p & P1 & K1). apply bind_Ok_inv in K1 as (q & Q1 & K1). apply bind_Ok_inv in K2 as (p' & P2 & K2). apply bind_Ok_inv in K2 as (q' & Q2 & K2). apply Ok_inj in K1, K2. apply Z.eqb_neq in Nb, Nc.
    right. split; [subst b1; destruct (@fgeb N p q); lia|]. split; [subst c1; destruct (@fgeb RNum p' q'); lia|]. intros a e Ha He.
    assert (C1 : close B d p p') by exact (lgetZ2 _ _ _ _ _ _ Hx P1 P2). assert (C2 : close B d q q') by exact (Hb _ _ Q1 Q2). assert (M := max_close _ _ _ _ C1 C2).
    assert (Ea : a = if @fgeb N p q then p else q). { subst b1. destruct (@fgeb N p q); apply Ok_inj; [exact (eq_trans (eq_sym Ha) P1)|exact (eq_trans (eq_sym Ha) Q1)]. }
    assert (Ee : e = if @fgeb RNum p' q' then p' else q'). { subst c1. destruct (@fgeb RNum p' q'); apply Ok_inj; [exact (eq_trans (eq_sym He) P2)|exact (eq_trans (eq_sym He) Q2)]. }
    rewrite Ea, Ee. exact M.
Qed.
Lemma pool_close f f' (x o : list f32) (X O : list R) g g' : f_nin f = f_nin f' -> f_index f = f_index f' -> f_kernels f = f_kernels f' -> Forall2 (close B d) x X -> @pool_output N f x = Ok (o, g) -> @pool_output RNum f' X = Ok (O, g') ->
  Forall2 (close B d) o O.
Proof.
  intros E1 E2 E3 Hx H1 H2. unfold pool_output in H1, H2. rewrite <- E2 in H2. destruct (_ <? _)%nat in H1; [discriminate|]. destruct (_ <? _)%nat in H2; [discriminate|].
  apply bind_Ok_inv in H1 as (b & B1 & H1). apply bind_Ok_inv in H1 as (o1 & F1 & H1). apply bind_Ok_inv in H1 as (o2 & G1 & H1). apply bind_Ok_inv in H2 as (c & B2 & H2). apply bind_Ok_inv in H2 as (O1 & F2 & H2). apply bind_Ok_inv in H2 as (O2 & G2 & H2).
  apply pair_inj in H1 as (-> & _). apply pair_inj in H2 as (-> & _).
  assert (HB : Forall2 (best_ok x X) b c). { eapply (omap2 _ _ eq); [|apply F2_refl|exact B1|exact B2]. intros r r' p q <- K1 K2. eapply best_close; eauto. }
  assert (HO : Forall2 (close B d) o1 O1). { eapply (omap2 _ _ (best_ok x X)); [|exact HB|exact F1|exact F2]. intros p q r t [(-> & ->)|(_ & _ & K)] K1 K2; [discriminate K1|eauto]. }
  eapply fill_close; [| |exact E3|exact HO|exact G1|exact G2]; lra.
Qed.
End B.
End L.
