(* What training never changes in recurrent and GRU layers (C68). *)
From Coq Require Import Reals Lra.
From Verif Require Import Base Num NumOrder ActModel ActProofs NeuronModel LayerModel NetModel NeuronProofs LayerProofs SafeProofs GradProofs SafeLayers FactoryModel FactorySpec FactoryProofs SafeNet BuildProofs FilterSpec HistProofs.
Local Open Scope nat_scope.

Section P.
Context {N : Num}.
(* the weights after the recurrent one: the bias weight *)
Definition rtail (r : RNeuron) : nat * list F := (n_in (r_n r), skipn (S (n_in (r_n r))) (n_w (r_n r))).
Definition gtail (g : GNeuron) : list (nat * list F) := [rtail (g_reset g); rtail (g_update g); rtail (g_output g)].
Definition tails (b : Body) : list (list (nat * list F)) :=
  match b with BRec rs => map (fun r => [rtail r]) rs | BGru gs => map gtail gs | _ => [] end.
Lemma rec_output_tail r x b v r' : rec_output r x b = Ok (v, r') -> rtail r' = rtail r.
Proof. unfold rec_output. intros H. cbv zeta in H. binds H. injection H as _ <-. destruct b; reflexivity. Qed.
Lemma omap_len {A B} (f : A -> outcome B) l : forall r, omap f l = Ok r -> List.length r = List.length l.
Proof. induction l as [|a t IH]; intros r H; cbn [omap] in H; [injection H as <-; reflexivity|]. binds H. injection H as <-. cbn. f_equal. auto. Qed.
Lemma skip_cons {A} (a : list A) b c n : List.length a = n -> skipn (S n) (a ++ b :: c) = c.
Proof. intros <-. induction a as [|x a IH]; [reflexivity|exact IH]. Qed.
Lemma sgd_rec_tail o r e r' : sgd_recurrent o r e = Ok r' -> rtail r' = rtail r.
Proof.
  unfold sgd_recurrent. intros H. cbv zeta in H. binds H. injection H as <-. unfold rtail. cbn [r_n set_wpl n_in n_w]. f_equal.
  match goal with E : omap _ (seq 0 (n_in (r_n r))) = Ok ?l |- context [?l ++ _] => apply omap_len in E; rewrite seq_length in E; exact (skip_cons l _ _ _ E) end.
Qed.
Lemma rec_back_tail o r e es r' : rec_backOutput o r e = Ok (es, r') -> rtail r' = rtail r.
Proof. unfold rec_backOutput. intros H. cbv zeta in H. binds H. injection H as <- <-. match goal with E : sgd_recurrent _ _ _ = Ok _ |- _ => apply sgd_rec_tail in E; exact E end. Qed.
Lemma gru_output_tail g x b v g' : gru_output g x b = Ok (v, g') -> gtail g' = gtail g.
Proof.
  unfold gru_output. intros H. cbv zeta in H. binds H. injection H as _ <-. unfold gtail; cbn [g_reset g_update g_output set_lastOut].
  repeat match goal with E : rec_output _ _ _ = Ok _ |- _ => apply rec_output_tail in E end. unfold rtail in *. cbn [set_lastOut r_n] in *. destruct b; cbn [gru_reset g_reset g_update g_output] in *; congruence.
Qed.
Lemma gru_gates_tail o g e a b c g' : gru_gates o g e = Ok (a, b, c, g') -> gtail g' = gtail g.
Proof.
  unfold gru_gates. intros H. cbv zeta in H. binds H. injection H as _ _ _ <-. unfold gtail; cbn [g_reset g_update g_output].
  repeat match goal with E : rec_backOutput _ _ _ = Ok _ |- _ => apply rec_back_tail in E end. congruence.
Qed.
Lemma body_output_tail b x r o b' : body_output b x r = Ok (o, b') -> tails b' = tails b.
Proof.
  destruct b as [ns|ns|ns|k f ns]; cbn [body_output]; intros H.
  - binds H. injection H as _ <-. reflexivity.
  - apply bind_Ok_inv in H as ([a c] & E & H). injection H as _ <-. cbn [tails]. eapply (each_keeps _ (fun r => [rtail r])); [|exact E]. intros ? ? ? ? E9. f_equal. exact (rec_output_tail _ _ _ _ _ E9).
  - apply bind_Ok_inv in H as ([a c] & E & H). injection H as _ <-. cbn [tails]. eapply (each_keeps _ gtail); [|exact E]. intros ? ? ? ? E9; exact (gru_output_tail _ _ _ _ _ E9).
  - destruct k; binds H; injection H as _ <-; reflexivity.
Qed.
Lemma body_back_tail o nin b e r b' : body_back o nin b e = Ok (r, b') -> tails b' = tails b.
Proof.
  destruct b as [ns|ns|ns|k f ns]; cbn [body_back]; intros H.
  - binds H. injection H as _ <-. reflexivity.
  - apply bind_Ok_inv in H as ([a c] & E & H). apply bind_Ok_inv in H as (? & _ & H). injection H as _ <-. cbn [tails]. eapply (each_keeps _ (fun r => [rtail r])); [|exact E]. intros ? ? ? ? E2; cbn beta in E2; apply bind_Ok_inv in E2 as (? & _ & E2); f_equal; eapply rec_back_tail; exact E2.
  - apply bind_Ok_inv in H as ([a c] & E & H). apply bind_Ok_inv in H as (? & _ & H). injection H as _ <-. cbn [tails]. eapply (each_keeps _ gtail); [|exact E]. intros ? ? ? ? E2; cbn beta in E2; apply bind_Ok_inv in E2 as (? & _ & E2).
    unfold gru_backOutput in E2. apply bind_Ok_inv in E2 as ([[[? ?] ?] ?] & E2 & Q). injection Q as _ <-. apply gru_gates_tail in E2. exact E2.
  - destruct k; binds H; injection H as _ <-; reflexivity.
Qed.
Lemma body_train_tail o b e b' : body_train o b e = Ok b' -> tails b' = tails b.
Proof.
  assert (T : forall {A C} (f : A -> F -> outcome A) (g : A -> C) ns us ns', (forall a e a', f a e = Ok a' -> g a' = g a) -> each (trained f e) ns = Ok (us, ns') -> map g ns' = map g ns).
  { intros A C f g ns us ns' Hf E. eapply each_keeps; [|exact E]. intros ? ? ? ? E2. unfold trained in E2. apply bind_Ok_inv in E2 as (? & _ & E2). apply bind_Ok_inv in E2 as (? & E3 & E2). injection E2 as _ <-. eauto. }
  destruct b as [ns|ns|ns|k f ns]; cbn [body_train]; intros H.
  - binds H. injection H as <-. reflexivity.
  - apply bind_Ok_inv in H as ([a c] & E & H). injection H as <-. cbn [tails]. eapply (T _ _ _ (fun r => [rtail r])); [|exact E]. intros ? ? ? E9. f_equal. exact (sgd_rec_tail _ _ _ _ E9).
  - apply bind_Ok_inv in H as ([a c] & E & H). injection H as <-. cbn [tails]. eapply (T _ _ _ gtail); [|exact E]. intros ? ? ? E9. unfold gru_train in E9. apply bind_Ok_inv in E9 as ([[[? ?] ?] ?] & E2 & Q). injection Q as <-. apply gru_gates_tail in E2. exact E2.
  - destruct k; binds H; injection H as <-; reflexivity.
Qed.
Lemma works_tails l l' : works l l' -> tails (l_body l') = tails (l_body l).
Proof.
  intros H. induction H as [l|l x reset o l1 l2 Hx E _ IH|l rand x reset o l1 l2 Hx E _ IH|l opt e r l1 l2 He E _ IH|l opt e l1 l2 He E _ IH|l opt e r l1 l2 Hn He E _ IH]; [reflexivity|..]; rewrite IH.
  - unfold layer_output in E. apply bind_Ok_inv in E as ([a b] & Eb & E). apply bind_Ok_inv in E as (? & _ & E). injection E as _ <-. now apply body_output_tail in Eb.
  - unfold layer_outputForTraining in E. apply bind_Ok_inv in E as ([a b] & Eb & E). apply bind_Ok_inv in E as ([? ?] & _ & E). injection E as _ <-. now apply body_output_tail in Eb.
  - unfold layer_backOutput in E. apply bind_Ok_inv in E as ([a b] & Eb & E). injection E as _ <-. now apply body_back_tail in Eb.
  - unfold layer_train in E. apply bind_Ok_inv in E as (b & Eb & E). injection E as <-. now apply body_train_tail in Eb.
  - unfold layer_backOutput in E. apply bind_Ok_inv in E as ([a b] & Eb & E). injection E as _ <-. now apply body_back_tail in Eb.
Qed.
End P.

(* ---------- the reset gate of GRU neurons, exact arithmetic ---------- *)
Notation GN := (@GNeuron RNum).
Definition frozen (g : GN) : Prop := g_prevOut g = 0%R /\ r_recErr (g_reset g) = 0%R /\ Forall (Forall (fun p : R => p = 0%R)) (q_data (n_prev (r_n (g_reset g)))) /\ List.length (n_w (r_n (g_reset g))) = n_in (r_n (g_reset g)) + 2.
Definition keeps (g g' : GN) : Prop := frozen g -> frozen g' /\ n_w (r_n (g_reset g')) = n_w (r_n (g_reset g)).
Lemma each_rel {A B} (f : nat -> A -> outcome (B * A)) (Q : A -> A -> Prop) l bs l' :
  (forall j a b a', f j a = Ok (b, a') -> Q a a') -> each f l = Ok (bs, l') -> Forall2 Q l l'.
Proof.
  intros H E. apply each_inv in E as (_ & L & Hj). revert l' L Hj.
  assert (G : forall (l l' : list A), List.length l' = List.length l -> (forall i a, nth_error l i = Some a -> exists a', nth_error l' i = Some a' /\ Q a a') -> Forall2 Q l l').
  { clear. induction l as [|a t IH]; intros [|a' t'] L Hj; cbn in L; try lia; constructor.
    - destruct (Hj 0 a eq_refl) as (b & Eb & Hb). cbn in Eb. injection Eb as <-. exact Hb.
    - apply IH; [lia|]. intros i x Hx. exact (Hj (S i) x Hx). }
  intros l' L Hj. apply G; [exact L|]. intros i a Ha. destruct (Hj i a Ha) as (b & a' & _ & E & Ef). eauto.
Qed.
Lemma gru_output_keeps (g : GN) x b v g' : @gru_output RNum g x b = Ok (v, g') -> keeps g g'.
Proof.
  unfold gru_output. intros H. cbv zeta in H. binds H. injection H as _ <-. intros (F1 & F2 & F3 & F4). unfold frozen. cbn [g_prevOut g_reset set_lastOut r_recErr r_n].
  match goal with E : rec_output (g_reset (if b then _ else _)) _ _ = Ok _ |- _ => unfold rec_output in E; cbv zeta in E; binds E; injection E as _ <- end. cbn [r_recErr r_n set_sum n_prev n_w n_in].
  destruct b; cbn [gru_reset g_prevOut g_reset rec_reset r_recErr r_n]; change (@fzero RNum) with (0 / 1)%R; (split; [split; [|split; [|split; [exact F3|exact F4]]]|reflexivity]); try assumption; lra.
Qed.
Lemma lget_zero (l : list R) i p : Forall (fun p : R => p = 0%R) l -> lget l i = Ok p -> p = 0%R.
Proof. unfold lget. intros H E. destruct (nth_error l i) as [a|] eqn:En; [|discriminate]. injection E as <-. rewrite Forall_forall in H. eapply H, nth_error_In, En. Qed.
Lemma omap_at {B} (f : nat -> outcome B) k r (b0 : B) : omap f (seq 0 k) = Ok r -> List.length r = k /\ forall i, i < k -> exists b, f i = Ok b /\ nth_error r i = Some b.
Proof. intros H. apply omap_seq_inv in H as [L H]. split; [exact L|]. intros i Hi. exists (nth i r b0). split; [now apply H|]. apply nth_error_nth'. lia. Qed.
Lemma nth_error_firstn_lt {A} (l : list A) : forall k i, i < k -> nth_error (firstn k l) i = nth_error l i.
Proof. induction l as [|a t IH]; intros [|k] [|i] H; try lia; cbn; auto. apply IH. lia. Qed.
Lemma lget_at {A} (l : list A) i p : lget l i = Ok p -> nth_error l i = Some p.
Proof. unfold lget. destruct (nth_error l i); [now injection 1 as ->|discriminate]. Qed.
Lemma sgd_frozen o (r : @RNeuron RNum) r' : r_recErr r = 0%R -> Forall (Forall (fun p : R => p = 0%R)) (q_data (n_prev (r_n r))) -> List.length (n_w (r_n r)) = n_in (r_n r) + 2 ->
  @sgd_recurrent RNum o r 0%R = Ok r' -> r_recErr r' = 0%R /\ Forall (Forall (fun p : R => p = 0%R)) (q_data (n_prev (r_n r'))) /\ n_in (r_n r') = n_in (r_n r) /\ n_w (r_n r') = n_w (r_n r).
Proof.
  intros K1 K2 K3 E. unfold sgd_recurrent in E. cbv zeta in E.
  apply bind_Ok_inv in E as ([xs lst] & Gl & E). apply bind_Ok_inv in E as ([pr prv] & Gp & E). apply bind_Ok_inv in E as (dl & Ed & E). apply bind_Ok_inv in E as (nw & En & E).
  apply bind_Ok_inv in E as (pb & Epb & E). apply bind_Ok_inv in E as (wr & Ewr & E). apply bind_Ok_inv in E as (prv' & Epu & E). injection E as <-. cbn [r_recErr r_n set_wpl n_prev n_w n_in]. change (@F RNum) with R in *.
  assert (Hpr : Forall (fun p : R => p = 0%R) pr /\ q_data prv = q_data (n_prev (r_n r))).
  { unfold getBack in Gp. apply bind_Ok_inv in Gp as (v & Ev & Q). injection Q as <- <-. split; [|reflexivity]. unfold lget in Ev. destruct (nth_error _ _) as [a|] eqn:Eq; [|discriminate]. injection Ev as <-. rewrite Forall_forall in K2. eapply K2, nth_error_In, Eq. }
  destruct Hpr as [Hpr Hc]. pose proof (lget_zero _ _ _ Hpr Epb) as ->.
  assert (Hd : dl = repeat 0%R (n_in (r_n r))).
  { apply (omap_at _ _ _ 0%R) in Ed as [Ld Hd]. apply nth_error_ext. intros i. destruct (Nat.ltb_spec i (n_in (r_n r))) as [Hi|Hi].
    - destruct (Hd i Hi) as (b & Hb & Eb). rewrite Eb, nth_error_repeat by exact Hi. f_equal. apply bind_Ok_inv in Hb as (xx & _ & Hb). apply bind_Ok_inv in Hb as (pp & Hp & Hb). injection Hb as <-. rewrite (lget_zero _ _ _ Hpr Hp). cbn. ring.
    - rewrite (proj2 (nth_error_None dl i)) by (change (@F RNum) with R in *; lia). symmetry. apply nth_error_None. rewrite repeat_length. exact Hi. }
  assert (Hn : nw = firstn (n_in (r_n r)) (n_w (r_n r))).
  { apply (omap_at _ _ _ 0%R) in En as [Ld Hn]. apply nth_error_ext. intros i. destruct (Nat.ltb_spec i (n_in (r_n r))) as [Hi|Hi].
    - destruct (Hn i Hi) as (b & Hb & Eb). rewrite Eb. rewrite nth_error_firstn_lt by exact Hi. apply bind_Ok_inv in Hb as (a & Ha & Hb). apply bind_Ok_inv in Hb as (dd & Hdd & Hb). injection Hb as <-.
      refine (eq_trans _ (eq_sym (lget_at _ _ _ Ha))). f_equal. rewrite Hd in Hdd. rewrite (lget_zero (repeat 0%R (n_in (r_n r))) i dd); [cbn; ring| |exact Hdd]. apply Forall_forall. intros q Hq. now apply repeat_spec in Hq.
    - rewrite (proj2 (nth_error_None nw i)) by (change (@F RNum) with R in *; lia). symmetry. apply nth_error_None. rewrite firstn_length. lia. }
  split; [|split; [|split; [reflexivity|]]].
  - cbn. rewrite K1. ring.
  - unfold pushBack in Epu. apply bind_Ok_inv in Epu as (q & Eq & Epu). injection Epu as <-. cbn [q_data]. rewrite Hc in Eq. unfold lset in Eq. destruct (_ <? _) in Eq; [|discriminate]. injection Eq as <-.
    apply Forall_of_nth. intros i v Hv. rewrite nth_error_replace in Hv. destruct (i =? _).
    + destruct (_ <? _) in Hv; [|discriminate]. injection Hv as <-. rewrite Hd. apply Forall_app. split; [apply Forall_forall; intros z Hz; now apply repeat_spec in Hz|]. constructor; [cbn; rewrite K1; ring|].
      apply Forall_forall. intros z Hz. apply repeat_spec in Hz. rewrite Hz. cbn. lra.
    + rewrite Forall_forall in K2. eapply K2, nth_error_In, Hv.
  - rewrite Hn. rewrite K1. pose proof (lget_at _ _ _ Ewr) as E0.
    assert (Q : forall z, z = wr -> firstn (n_in (r_n r)) (n_w (r_n r)) ++ z :: skipn (S (n_in (r_n r))) (n_w (r_n r)) = n_w (r_n r)).
    { intros z ->. clear -E0. revert E0. generalize (n_w (r_n r)) (n_in (r_n r)). induction l as [|a t IH]; intros [|k] E0; cbn in E0; try discriminate; cbn [firstn skipn app]; [now injection E0 as ->|]. f_equal. now apply IH. }
    apply Q. cbn. ring.
Qed.
Lemma gru_gates_keeps o (g : GN) e a b c g' : @gru_gates RNum o g e = Ok (a, b, c, g') -> keeps g g'.
Proof.
  unfold gru_gates. intros H (F1 & F2 & F3 & F4). cbv zeta in H. apply bind_Ok_inv in H as ([e1 og] & _ & H). apply bind_Ok_inv in H as ([e2 ug] & _ & H). apply bind_Ok_inv in H as (d13 & _ & H). apply bind_Ok_inv in H as ([e3 rg] & E & H).
  injection H as _ _ _ <-. unfold frozen. cbn [g_prevOut g_reset]. unfold rec_backOutput in E. cbv zeta in E. apply bind_Ok_inv in E as (x & _ & E). apply bind_Ok_inv in E as (r' & E & Q). injection Q as _ <-.
  match type of E with sgd_recurrent o ?r0 ?er = _ => assert (He : er = 0%R) by (rewrite F1; cbn; ring); rewrite He in E; destruct (sgd_frozen o r0 r' F2 F3 F4 E) as (G1 & G2 & G3 & G4) end. cbn [r_n set_err n_in n_w] in G3, G4.
  split; [|exact G4]. split; [exact F1|]. split; [exact G1|]. split; [exact G2|]. now rewrite G3, G4.
Qed.
Definition gkeeps (b b' : @Body RNum) : Prop := match b, b' with BGru gs, BGru gs' => Forall2 keeps gs gs' | BGru _, _ | _, BGru _ => False | _, _ => True end.
Lemma gkeeps_output (b : @Body RNum) x r o b' : @body_output RNum b x r = Ok (o, b') -> gkeeps b b'.
Proof.
  destruct b as [ns|ns|ns|k f ns]; cbn [body_output]; intros H.
  1,2: binds H; injection H as _ <-; exact I.
  - apply bind_Ok_inv in H as ([a c] & E & H). injection H as _ <-. cbn [gkeeps]. eapply each_rel; [|exact E]. intros ? ? ? ? E9; exact (gru_output_keeps _ _ _ _ _ E9).
  - destruct k; binds H; injection H as _ <-; exact I.
Qed.
Lemma gkeeps_back o nin (b : @Body RNum) e r b' : @body_back RNum o nin b e = Ok (r, b') -> gkeeps b b'.
Proof.
  destruct b as [ns|ns|ns|k f ns]; cbn [body_back]; intros H.
  1,2: binds H; injection H as _ <-; exact I.
  - apply bind_Ok_inv in H as ([a c] & E & H). apply bind_Ok_inv in H as (? & _ & H). injection H as _ <-. cbn [gkeeps]. eapply each_rel; [|exact E]. intros ? ? ? ? E2; cbn beta in E2; apply bind_Ok_inv in E2 as (? & _ & E2).
    unfold gru_backOutput in E2. apply bind_Ok_inv in E2 as ([[[? ?] ?] ?] & E2 & Q). injection Q as _ <-. apply gru_gates_keeps in E2. exact E2.
  - destruct k; binds H; injection H as _ <-; exact I.
Qed.
Lemma gkeeps_train o (b : @Body RNum) e b' : @body_train RNum o b e = Ok b' -> gkeeps b b'.
Proof.
  destruct b as [ns|ns|ns|k f ns]; cbn [body_train]; intros H.
  1,2: binds H; injection H as <-; exact I.
  - apply bind_Ok_inv in H as ([a c] & E & H). injection H as <-. cbn [gkeeps]. eapply each_rel; [|exact E]. intros ? ? ? ? E2. unfold trained in E2. apply bind_Ok_inv in E2 as (? & _ & E2). apply bind_Ok_inv in E2 as (? & E3 & E2). injection E2 as _ <-.
    unfold gru_train in E3. apply bind_Ok_inv in E3 as ([[[? ?] ?] ?] & E3 & Q). injection Q as <-. apply gru_gates_keeps in E3. exact E3.
  - destruct k; binds H; injection H as <-; exact I.
Qed.
Lemma keeps_trans a b c : keeps a b -> keeps b c -> keeps a c.
Proof. intros A B Fz. destruct (A Fz) as [F1 E1]. destruct (B F1) as [F2 E2]. split; [exact F2|congruence]. Qed.
Lemma gkeeps_trans a b c : gkeeps a b -> gkeeps b c -> gkeeps a c.
Proof. destruct a, b, c; cbn [gkeeps]; try contradiction; auto. apply Forall2_trans. exact keeps_trans. Qed.
Lemma works_keeps (l l' : @Layer RNum) : works l l' -> gkeeps (l_body l) (l_body l').
Proof.
  intros H. induction H as [l|l x reset o l1 l2 Hx E _ IH|l rand x reset o l1 l2 Hx E _ IH|l opt e r l1 l2 He E _ IH|l opt e l1 l2 He E _ IH|l opt e r l1 l2 Hn He E _ IH]; [|eapply gkeeps_trans; [|exact IH]..].
  - destruct (l_body l); cbn [gkeeps]; auto. induction ns; constructor; auto. intros Hz. auto.
  - unfold layer_output in E. apply bind_Ok_inv in E as ([a b] & Eb & E). apply bind_Ok_inv in E as (? & _ & E). injection E as _ <-. now apply gkeeps_output in Eb.
  - unfold layer_outputForTraining in E. apply bind_Ok_inv in E as ([a b] & Eb & E). apply bind_Ok_inv in E as ([? ?] & _ & E). injection E as _ <-. now apply gkeeps_output in Eb.
  - unfold layer_backOutput in E. apply bind_Ok_inv in E as ([a b] & Eb & E). injection E as _ <-. now apply gkeeps_back in Eb.
  - unfold layer_train in E. apply bind_Ok_inv in E as (b & Eb & E). injection E as <-. now apply gkeeps_train in Eb.
  - unfold layer_backOutput in E. apply bind_Ok_inv in E as ([a b] & Eb & E). injection E as _ <-. now apply gkeeps_back in Eb.
Qed.
