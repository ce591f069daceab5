(* Errors and rates scaled. *)
From Coq Require Import Reals Lia Lra.
From Verif Require Import Base Num ActModel NeuronModel LayerModel NetModel FactoryModel PoolProofs AlikeProofs AlikeTrain LookSpec NeutralSpec NeutralProofs.
Local Open Scope outcome_scope.
Local Open Scope list_scope.
Local Existing Instance RNum.

(* generic relations between executions *)
Definition both {A B C D} (Q : A -> C -> Prop) (R : B -> D -> Prop) (p : A * B) (q : C * D) : Prop := Q (fst p) (fst q) /\ R (snd p) (snd q).
Lemma F2_eq {A} (l : list A) : Forall2 eq l l. Proof. induction l; constructor; auto. Qed.
Lemma omap_rel {A A' B B'} (Q : A -> A' -> Prop) (R : B -> B' -> Prop) f g l l' : Forall2 Q l l' -> (forall a a', Q a a' -> orel R (f a) (g a')) -> orel (Forall2 R) (omap f l) (omap g l').
Proof.
  intros H Hf. induction H as [|a a' l l' Ha _ IH]; cbn [omap]; [constructor|]. eapply orel_bind; [apply Hf; exact Ha|]. intros b b' Hb. eapply orel_bind; [exact IH|]. intros r r' Hr. now constructor.
Qed.
Lemma omap_relq {A B B'} (R : B -> B' -> Prop) f g (l : list A) : (forall a, orel R (f a) (g a)) -> orel (Forall2 R) (omap f l) (omap g l).
Proof. intros H. eapply omap_rel; [apply F2_eq|]. intros a ? <-. apply H. Qed.
Lemma ofold_rel {A A' S S'} (Q : A -> A' -> Prop) (R : S -> S' -> Prop) f g l l' : Forall2 Q l l' -> (forall s s' a a', R s s' -> Q a a' -> orel R (f s a) (g s' a')) ->
  forall s s', R s s' -> orel R (ofold f l s) (ofold g l' s').
Proof.
  intros H Hf. induction H as [|a a' l l' Ha _ IH]; intros s s' Hs; cbn [ofold]; [exact Hs|]. eapply orel_bind; [apply Hf; eassumption|]. intros t t' Ht. now apply IH.
Qed.
Lemma each_both_from {A A' B B'} (Q : B -> B' -> Prop) (R : A -> A' -> Prop) f g l l' : Forall2 R l l' -> (forall i a a', R a a' -> orel (both Q R) (f i a) (g i a')) ->
  forall i, orel (both (Forall2 Q) (Forall2 R)) (each_from f i l) (each_from g i l').
Proof.
  intros H Hf. induction H as [|a a' l l' Ha _ IH]; intros i; cbn [each_from]; [split; constructor|]. eapply orel_bind; [apply (Hf i _ _ Ha)|]. intros p q (E1 & E2).
  eapply orel_bind; [apply IH|]. intros u v (E3 & E4). split; now constructor.
Qed.
Lemma each_both {A A' B B'} (Q : B -> B' -> Prop) (R : A -> A' -> Prop) f g l l' : Forall2 R l l' -> (forall i a a', R a a' -> orel (both Q R) (f i a) (g i a')) -> orel (both (Forall2 Q) (Forall2 R)) (each f l) (each g l').
Proof. intros. now apply each_both_from. Qed.
Lemma lset_rel {A} (R : A -> A -> Prop) l l' i x y : Forall2 R l l' -> R x y -> orel (Forall2 R) (lset l i x) (lset l' i y).
Proof.
  intros H Hx. unfold lset. rewrite <- (Forall2_len _ _ _ H). destruct (_ <? _); [|exact I]. cbn. revert i. induction H as [|a b l l' Hab H IH]; intros [|i]; cbn; constructor; auto.
Qed.
Lemma lgetZ_rel {A} (R : A -> A -> Prop) l l' i : Forall2 R l l' -> orel R (lgetZ l i) (lgetZ l' i).
Proof. intros H. unfold lgetZ. destruct (_ <? _)%Z; [exact I|]. now apply lget_rel. Qed.
Lemma lsetZ_rel {A} (R : A -> A -> Prop) l l' i x y : Forall2 R l l' -> R x y -> orel (Forall2 R) (lsetZ l i x) (lsetZ l' i y).
Proof. intros H Hx. unfold lsetZ. destruct (_ <? _)%Z; [exact I|]. now apply lset_rel. Qed.
Lemma F2_skipn {A B} (R : A -> B -> Prop) l l' : Forall2 R l l' -> forall n, Forall2 R (skipn n l) (skipn n l').
Proof. induction 1 as [|a b l l' Hab H IH]; intros [|n]; cbn; auto. Qed.
Lemma F2_repeat {A B} (R : A -> B -> Prop) a b n : R a b -> Forall2 R (repeat a n) (repeat b n).
Proof. intros. induction n; cbn; auto. Qed.
Lemma F2_zip {A B C} (R : C -> C -> Prop) (Q : A -> A -> Prop) (P : B -> B -> Prop) f a a' : Forall2 Q a a' -> (forall x x' y y', Q x x' -> P y y' -> R (f x y) (f x' y')) -> forall b b', Forall2 P b b' -> Forall2 R (zipwith f a b) (zipwith f a' b').
Proof. intros H Hf. induction H as [|x x' a a' Hx H IH]; intros b b' Hb; cbn; [constructor|]. destruct Hb; constructor; auto. Qed.

Section Scale.
Variable c : R.
Definition sc (x y : @F RNum) : Prop := y = (c * x)%R.
Definition scs : list (@F RNum) -> list (@F RNum) -> Prop := Forall2 sc.
Lemma sc_mul x y k : sc x y -> sc (fmul x k) (fmul y k). Proof. unfold sc. intros ->. change (c * x * k = c * (x * k))%R. ring. Qed.
Lemma sc_mul_l x y k : sc x y -> sc (fmul k x) (fmul k y). Proof. unfold sc. intros ->. change (k * (c * x) = c * (k * x))%R. ring. Qed.
Lemma sc_add x y x' y' : sc x y -> sc x' y' -> sc (fadd x x') (fadd y y'). Proof. unfold sc. intros -> ->. change (c * x + c * x' = c * (x + x'))%R. ring. Qed.
Lemma sc_zero : sc fzero fzero. Proof. change (0 / 1 = c * (0 / 1))%R. lra. Qed.
(* the rate of the one is [c] times the rate of the other *)
Variables o o' : SGD.
Hypothesis Hlr : o_lr o = (c * o_lr o')%R.
Hypothesis Hm : o_m o' = o_m o.
Lemma rate_error b e e' : sc e e' -> fmul (fdiv (o_lr o') b) e' = fmul (fdiv (o_lr o) b) e.
Proof. unfold sc. intros ->. rewrite Hlr. change (o_lr o' / b * (c * e) = c * o_lr o' / b * e)%R. unfold Rdiv. ring. Qed.

Definition nsc (a b : Neuron) : Prop := exists e, b = set_err a e /\ scs (n_err a) e.
Lemma nsc_w a b : nsc a b -> n_w b = n_w a. Proof. intros (e & -> & _). reflexivity. Qed.
Lemma nsc_simple a b e e' : nsc a b -> sc e e' -> orel nsc (sgd_simple o a e) (sgd_simple o' b e').
Proof.
  intros (er & -> & Her) He. unfold sgd_simple. cbn [set_err n_in n_batch n_w n_bias n_prev n_last n_err n_sum n_act]. rewrite Hm, (rate_error _ _ _ He).
  eapply orel_bind; [apply orel_eq|]. intros ? (li & last) ->. eapply orel_bind; [apply orel_eq|]. intros ? (pv & prev) ->.
  eapply orel_bind; [apply orel_eq|]. intros ? ds ->. eapply orel_bind; [apply orel_eq|]. intros ? nw ->. eapply orel_bind; [apply orel_eq|]. intros ? pb ->.
  eapply orel_bind; [apply orel_eq|]. intros ? ? ->. eapply orel_bind; [apply orel_eq|]. intros ? p' ->. cbn. exists er. split; [reflexivity|exact Her].
Qed.
Lemma nsc_back a b e e' : nsc a b -> sc e e' -> orel (both scs nsc) (simple_backOutput o a e) (simple_backOutput o' b e').
Proof.
  intros (er & -> & Her) He. unfold simple_backOutput. cbn [set_err n_act n_sum n_err n_w].
  assert (L : List.length (n_err a) = List.length er) by (eapply Forall2_len; exact Her). rewrite <- L.
  eapply orel_bind; [apply (omap_relq sc); intros w; eapply orel_bind; [apply orel_eq|]; intros ? x ->; cbn; now apply sc_mul, sc_mul|].
  intros es es' Hes. eapply orel_bind; [apply nsc_simple; [exists es'; split; [reflexivity|exact Hes]|now apply sc_mul]|]. intros n n' Hn. now split.
Qed.
Lemma nsc_train a b e e' : nsc a b -> sc e e' -> orel nsc (simple_train o a e) (simple_train o' b e').
Proof. intros Hn He. pose proof Hn as (er & -> & _). unfold simple_train. cbn [set_err n_act n_sum]. apply nsc_simple; [exact Hn|]. now apply sc_mul. Qed.
Lemma nsc_output a b x : nsc a b -> orel (with_out nsc) (simple_output a x) (simple_output b x).
Proof.
  intros (er & -> & Her). unfold simple_output. cbn [set_err n_act n_sum n_err n_w n_last n_bias]. eapply orel_bind; [apply orel_eq|]. intros ? l ->. eapply orel_bind; [apply orel_eq|]. intros ? t ->.
  eapply orel_bind; [apply orel_eq|]. intros ? wb ->. split; [reflexivity|]. exists er. split; [reflexivity|exact Her].
Qed.

Definition rsc (a b : RNeuron) : Prop := nsc (r_n a) (r_n b) /\ r_lastOut b = r_lastOut a /\ r_prevOut b = r_prevOut a /\ r_prevSum b = r_prevSum a /\ sc (r_recErr a) (r_recErr b).
Lemma rsc_output a b x t : rsc a b -> orel (with_out rsc) (rec_output a x t) (rec_output b x t).
Proof.
  destruct a as [n lo po re ps], b as [n' lo' po' re' ps']. intros ((er & En & Her) & E1 & E2 & E3 & E4). cbn in En, E1, E2, E3, E4. subst. unfold rec_output, rec_reset.
  destruct t; cbn [r_n r_lastOut r_prevOut r_recErr r_prevSum set_err n_act n_sum n_err n_w n_last n_bias];
  (eapply orel_bind; [apply orel_eq|]; intros ? l ->; eapply orel_bind; [apply orel_eq|]; intros ? t ->;
   eapply orel_bind; [apply orel_eq|]; intros ? wr ->; eapply orel_bind; [apply orel_eq|]; intros ? wb ->; split; [reflexivity|]; split; [exists er; split; [reflexivity|exact Her]|]; cbn; repeat split; auto using sc_zero).
Qed.
Lemma rsc_sgd a b e e' : rsc a b -> sc e e' -> orel rsc (sgd_recurrent o a e) (sgd_recurrent o' b e').
Proof.
  destruct a as [n lo po re ps], b as [n' lo' po' re' ps']. intros ((er & En & Her) & E1 & E2 & E3 & E4) He. cbn in En, E1, E2, E3, E4. subst. unfold sgd_recurrent.
  cbn [r_n r_lastOut r_prevOut r_recErr r_prevSum set_err n_in n_batch n_w n_bias n_prev n_last n_err n_sum n_act]. rewrite Hm, (rate_error _ _ _ He).
  eapply orel_bind; [apply orel_eq|]. intros ? (li & last) ->. eapply orel_bind; [apply orel_eq|]. intros ? (pv & prev) ->.
  eapply orel_bind; [apply orel_eq|]. intros ? ds ->. eapply orel_bind; [apply orel_eq|]. intros ? nw ->. eapply orel_bind; [apply orel_eq|]. intros ? pb ->.
  eapply orel_bind; [apply orel_eq|]. intros ? wr ->. cbv zeta.
  set (w1 := fadd wr _). assert (HR : sc (fadd e (fmul (fmul re (actd (n_act n) ps)) w1)) (fadd e' (fmul (fmul re' (actd (n_act n) ps)) w1))) by (apply sc_add; [exact He|]; now apply sc_mul, sc_mul).
  rewrite (rate_error _ _ _ HR). eapply orel_bind; [apply orel_eq|]. intros ? p' ->. split; [exists er; split; [reflexivity|exact Her]|]. cbn [r_lastOut r_prevOut r_prevSum r_recErr]. auto.
Qed.
Lemma rsc_back a b e e' : rsc a b -> sc e e' -> orel (both scs rsc) (rec_backOutput o a e) (rec_backOutput o' b e').
Proof.
  destruct a as [n lo po re ps], b as [n' lo' po' re' ps']. intros ((er & En & Her) & E1 & E2 & E3 & E4) He. cbn in En, E1, E2, E3, E4. subst. unfold rec_backOutput.
  cbn [r_n r_lastOut r_prevOut r_recErr r_prevSum set_err n_in n_batch n_w n_bias n_prev n_last n_err n_sum n_act].
  assert (He' : sc (fmul e (actd (n_act n) (n_sum n))) (fmul e' (actd (n_act n) (n_sum n)))) by now apply sc_mul.
  eapply orel_bind; [apply (omap_relq sc); intros w; eapply orel_bind; [apply orel_eq|]; intros ? x ->; eapply orel_bind; [apply (lget_rel sc); exact Her|]; intros; cbn; now apply sc_mul|].
  intros es es' Hes. assert (HE : scs (es ++ skipn (n_in n) (n_err n)) (es' ++ skipn (n_in n) er)) by (apply Forall2_app; [exact Hes|]; now apply F2_skipn).
  eapply orel_bind; [apply rsc_sgd; [|exact He']|].
  - split; [eexists; split; [reflexivity|exact HE]|]. cbn. auto.
  - intros r r' Hr. split; [exact HE|exact Hr].
Qed.
Lemma rsc_train a b e e' : rsc a b -> sc e e' -> orel rsc (rec_train o a e) (rec_train o' b e').
Proof.
  intros Hr He. unfold rec_train. assert (E : actd (n_act (r_n b)) (n_sum (r_n b)) = actd (n_act (r_n a)) (n_sum (r_n a))) by (destruct Hr as ((er & -> & _) & _); reflexivity).
  rewrite E. apply rsc_sgd; [exact Hr|]. now apply sc_mul.
Qed.
Lemma rsc_w a b : rsc a b -> n_w (r_n b) = n_w (r_n a). Proof. intros (H & _). now apply nsc_w. Qed.

Definition gsc (a b : GNeuron) : Prop := g_in b = g_in a /\ g_prevOut b = g_prevOut a /\ g_updOut b = g_updOut a /\ g_outOut b = g_outOut a /\
  rsc (g_reset a) (g_reset b) /\ rsc (g_update a) (g_update b) /\ rsc (g_output a) (g_output b).
Lemma rsc_setLast a b v : rsc a b -> rsc (set_lastOut a v) (set_lastOut b v). Proof. intros (H & E1 & E2 & E3 & E4). repeat split; auto. Qed.
Lemma gsc_output a b x t : gsc a b -> orel (with_out gsc) (gru_output a x t) (gru_output b x t).
Proof.
  destruct a as [i er po re u oo g1 g2 g3], b as [i' er' po' re' u' oo' h1 h2 h3]. intros (E1 & E2 & E3 & E4 & R1 & R2 & R3). cbn in E1, E2, E3, E4, R1, R2, R3. subst. unfold gru_output, gru_reset.
  destruct t; cbn [g_in g_err g_prevOut g_recErr g_updOut g_outOut g_reset g_update g_output];
  (eapply orel_bind; [apply rsc_output; exact R1|]; intros (q1 & k1) (q1' & k1') (X1 & X2); cbn in X1, X2; subst q1';
   eapply orel_bind; [apply rsc_output; exact R2|]; intros (q2 & k2) (q2' & k2') (Y1 & Y2); cbn in Y1, Y2; subst q2';
   replace (r_lastOut h3) with (r_lastOut g3) by (destruct R3 as (_ & -> & _); reflexivity);
   eapply orel_bind; [apply rsc_output; apply rsc_setLast; exact R3|]; intros (q3 & k3) (q3' & k3') (Z1 & Z2); cbn in Z1, Z2; subst q3';
   split; [reflexivity|]; cbn; repeat split; auto using rsc_setLast; try (apply rsc_setLast; assumption); destruct X2, Y2, Z2; cbn; tauto).
Qed.
Definition gates_rel (p q : list (@F RNum) * list (@F RNum) * list (@F RNum) * GNeuron) : Prop := scs (fst (fst (fst p))) (fst (fst (fst q))) /\ scs (snd (fst (fst p))) (snd (fst (fst q))) /\ scs (snd (fst p)) (snd (fst q)) /\ gsc (snd p) (snd q).
Lemma gsc_gates a b e e' : gsc a b -> sc e e' -> orel gates_rel (gru_gates o a e) (gru_gates o' b e').
Proof.
  intros (E1 & E2 & E3 & E4 & R1 & R2 & R3) He. unfold gru_gates. cbv zeta. rewrite E1, E2, E3, E4.
  eapply orel_bind; [apply rsc_back; [exact R3|now apply sc_mul]|]. intros (e1 & k1) (e1' & k1') (X1 & X2). cbn in X1, X2.
  eapply orel_bind; [apply rsc_back; [exact R2|apply sc_add; now apply sc_mul]|]. intros (e2 & k2) (e2' & k2') (Y1 & Y2). cbn in Y1, Y2.
  assert (L : List.length e1 = List.length e1') by (eapply Forall2_len; exact X1). rewrite <- L.
  eapply orel_bind; [apply (lgetZ_rel sc); exact X1|]. intros d d' Hd. eapply orel_bind; [apply rsc_back; [exact R1|now apply sc_mul]|]. intros (e3 & k3) (e3' & k3') (Z1 & Z2). cbn in Z1, Z2.
  repeat split; auto; cbn; first [apply X2|apply Y2|apply Z2].
Qed.
Lemma addTo_sc a a' b b' : scs a a' -> scs b b' -> scs (addTo a b) (addTo a' b').
Proof.
  intros Ha Hb. unfold addTo. assert (L : List.length b = List.length b') by (eapply Forall2_len; exact Hb). rewrite <- L. apply Forall2_app; [|now apply F2_skipn].
  eapply F2_zip; [exact Ha| |exact Hb]. intros. now apply sc_add.
Qed.
Lemma gsc_back a b e e' : gsc a b -> sc e e' -> orel (both scs gsc) (gru_backOutput o a e) (gru_backOutput o' b e').
Proof.
  intros H He. unfold gru_backOutput. eapply orel_bind; [apply gsc_gates; eassumption|]. intros (((e1 & e2) & e3) & g) (((e1' & e2') & e3') & g') (X & Y & Z & G). cbn in X, Y, Z, G.
  destruct G as (E1 & E2 & E3 & E4 & R1 & R2 & R3). split; cbn; [|repeat split; auto; first [apply R1|apply R2|apply R3]]. now apply addTo_sc; [apply addTo_sc|].
Qed.
Lemma gsc_train a b e e' : gsc a b -> sc e e' -> orel gsc (gru_train o a e) (gru_train o' b e').
Proof.
  intros H He. unfold gru_train. eapply orel_bind; [apply gsc_gates; eassumption|]. intros (((e1 & e2) & e3) & g) (((e1' & e2') & e3') & g') (X & Y & Z & G). exact G.
Qed.
Lemma gsc_w a b : gsc a b -> gru_weights b = gru_weights a.
Proof. intros (_ & _ & _ & _ & R1 & R2 & R3). unfold gru_weights. now rewrite (rsc_w _ _ R1), (rsc_w _ _ R2), (rsc_w _ _ R3). Qed.

(* bodies *)
Inductive bsc : Body -> Body -> Prop :=
| s_full ns ns' : Forall2 nsc ns ns' -> bsc (BFull ns) (BFull ns')
| s_rec ns ns' : Forall2 rsc ns ns' -> bsc (BRec ns) (BRec ns')
| s_gru ns ns' : Forall2 gsc ns ns' -> bsc (BGru ns) (BGru ns')
| s_filter k f ns ns' : Forall2 nsc ns ns' -> bsc (BFilter k f ns) (BFilter k f ns').
Lemma map_same {A B} (R : A -> A -> Prop) (f : A -> B) l l' : Forall2 R l l' -> (forall a b, R a b -> f b = f a) -> map f l' = map f l.
Proof. intros H Hf. induction H; cbn; [reflexivity|]. f_equal; auto. Qed.
Lemma bsc_w a b : bsc a b -> body_weights b = body_weights a.
Proof. intros []; cbn; eapply map_same; eauto; [apply nsc_w|apply rsc_w|apply gsc_w|apply nsc_w]. Qed.
Lemma conv_out_sc f ns ns' x : Forall2 nsc ns ns' -> orel (with_out (Forall2 nsc)) (conv_output f ns x) (conv_output f ns' x).
Proof.
  intros H. unfold conv_output. eapply orel_bind.
  - eapply (ofold_rel eq (with_out (Forall2 nsc))); [apply F2_eq| |].
    + intros (s1 & l1) (s2 & l2) a ? (E & Hl) <-. cbn in E, Hl. subst s2. eapply orel_bind; [apply orel_eq|]. intros ? win ->. eapply orel_bind; [apply each_rel; [exact Hl|]; intros; now apply nsc_output|].
      intros (q1 & k1) (q2 & k2) (E & Hk). cbn in E, Hk. subst q2. now split.
    + now split.
  - intros (s1 & l1) (s2 & l2) (E & Hl). cbn in E, Hl. subst s2. eapply orel_bind; [apply orel_eq|]. intros ? u ->. now split.
Qed.
Lemma F2_firstn {A B} (R : A -> B -> Prop) l l' : Forall2 R l l' -> forall n, Forall2 R (firstn n l) (firstn n l').
Proof. induction 1 as [|a b l l' Hab H IH]; intros [|n]; cbn; auto. Qed.
Lemma loc_out_sc f ns ns' x : Forall2 nsc ns ns' -> orel (with_out (Forall2 nsc)) (loc_output f ns x) (loc_output f ns' x).
Proof.
  intros H. unfold loc_output. assert (L : List.length ns = List.length ns') by (eapply Forall2_len; exact H). rewrite <- L. destruct (_ <? _); [exact I|].
  eapply orel_bind; [apply orel_eq|]. intros ? wins ->. eapply orel_bind; [apply (each_rel nsc); [apply F2_firstn; exact H|]|].
  - intros i p q Hpq. cbv beta. eapply orel_bind; [apply orel_eq|]. intros ? win ->. now apply nsc_output.
  - intros (q1 & k1) (q2 & k2) (E & Hk). cbn in E, Hk. subst q2. eapply orel_bind; [apply orel_eq|]. intros ? u ->. split; [reflexivity|]. cbn. apply Forall2_app; [exact Hk|now apply F2_skipn].
Qed.
Lemma bsc_output a b x t : bsc a b -> orel (with_out bsc) (body_output a x t) (body_output b x t).
Proof.
  intros [ns ns' H|ns ns' H|ns ns' H|k f ns ns' H]; cbn [body_output].
  - eapply orel_bind; [apply each_rel; [exact H|]; intros; now apply nsc_output|]. intros (q1 & k1) (q2 & k2) (E & Hk). cbn in E, Hk. subst q2. split; [reflexivity|now constructor].
  - eapply orel_bind; [apply each_rel; [exact H|]; intros; now apply rsc_output|]. intros (q1 & k1) (q2 & k2) (E & Hk). cbn in E, Hk. subst q2. split; [reflexivity|now constructor].
  - eapply orel_bind; [apply each_rel; [exact H|]; intros; now apply gsc_output|]. intros (q1 & k1) (q2 & k2) (E & Hk). cbn in E, Hk. subst q2. split; [reflexivity|now constructor].
  - destruct k.
    1,2: eapply orel_bind; [apply conv_out_sc; exact H|]; intros (q1 & k1) (q2 & k2) (E & Hk); cbn in E, Hk; subst q2; split; [reflexivity|now constructor].
    1,2: eapply orel_bind; [apply loc_out_sc; exact H|]; intros (q1 & k1) (q2 & k2) (E & Hk); cbn in E, Hk; subst q2; split; [reflexivity|now constructor].
    all: eapply orel_bind; [apply orel_eq|]; intros ? (q1 & f1) ->; split; [reflexivity|now constructor].
Qed.
Lemma addErrors_sc a a' b b' : scs a a' -> scs b b' -> orel scs (addErrors a b) (addErrors a' b').
Proof.
  intros Ha Hb. unfold addErrors. assert (L : List.length a = List.length a') by (eapply Forall2_len; exact Ha). rewrite <- L. apply (omap_relq sc). intros e.
  eapply orel_bind; [apply (lget_rel sc); exact Ha|]. intros x x' Hx. eapply orel_bind; [apply (lget_rel sc); exact Hb|]. intros y y' Hy. now apply sc_add.
Qed.
Lemma scatter_sc test row a a' b b' : scs a a' -> scs b b' -> orel scs (scatter test row a b) (scatter test row a' b').
Proof.
  intros Ha Hb. unfold scatter. assert (L : List.length b = List.length b') by (eapply Forall2_len; exact Hb). rewrite <- L. eapply (ofold_rel eq scs); [apply F2_eq| |exact Ha].
  intros s s' i ? Hs <-. eapply orel_bind; [apply orel_eq|]. intros ? idx ->. eapply orel_bind; [apply (lget_rel sc); exact Hb|]. intros v v' Hv. destruct (test && _); [exact Hs|].
  eapply orel_bind; [apply (lgetZ_rel sc); exact Hs|]. intros x x' Hx. apply (lsetZ_rel sc); [exact Hs|]. now apply sc_add.
Qed.
Lemma conv_back_sc nin f ns ns' e e' : Forall2 nsc ns ns' -> scs e e' -> orel (both scs (Forall2 nsc)) (conv_back o nin f ns e) (conv_back o' nin f ns' e').
Proof.
  intros H He. unfold conv_back. eapply orel_bind.
  - eapply (ofold_rel eq (both (both scs eq) (Forall2 nsc))); [apply F2_eq| |].
    + intros ((s1 & i1) & l1) ((s2 & i2) & l2) a ? ((Hs & E) & Hl) <-. cbn in Hs, E, Hl. subst i2. cbv beta iota. eapply orel_bind.
      * apply (each_both scs nsc); [exact Hl|]. intros i p q Hpq. eapply orel_bind; [apply (lget_rel sc); exact He|]. intros x x' Hx. now apply nsc_back.
      * intros (es & k1) (es' & k2) (Hes & Hk). cbn in Hes, Hk. eapply orel_bind; [eapply (ofold_rel scs scs); [exact Hes| |exact Hs]; intros; now apply scatter_sc|].
        intros r r' Hr. assert (L : List.length l1 = List.length l2) by (eapply Forall2_len; exact Hl). rewrite L. repeat split; auto.
    + split; [split; [apply F2_repeat, sc_zero|reflexivity]|exact H].
  - intros ((s1 & i1) & l1) ((s2 & i2) & l2) ((Hs & E) & Hl). now split.
Qed.
Lemma loc_back_sc two nin f ns ns' e e' : Forall2 nsc ns ns' -> scs e e' -> orel (both scs (Forall2 nsc)) (loc_back two o nin f ns e) (loc_back two o' nin f ns' e').
Proof.
  intros H He. unfold loc_back. eapply orel_bind.
  - apply (each_both (both eq scs) nsc); [exact H|]. intros i p q Hpq. eapply orel_bind; [apply (lget_rel sc); exact He|]. intros x x' Hx. eapply orel_bind; [apply nsc_back; eassumption|].
    intros (er & k1) (er' & k2) (Her & Hk). cbn in Her, Hk. assert (L : List.length er = List.length er') by (eapply Forall2_len; exact Her). rewrite <- L.
    destruct (_ =? 0); [exact I|]. eapply orel_bind; [apply orel_eq|]. intros ? row ->. repeat split; auto.
  - intros (es & k1) (es' & k2) (Hes & Hk). cbn in Hes, Hk. eapply orel_bind; [eapply (ofold_rel (both eq scs) scs); [exact Hes| |apply F2_repeat, sc_zero]|].
    + intros s s' (r1 & q1) (r2 & q2) Hs (E & Hq). cbn in E, Hq. subst r2. apply (scatter_sc true r1); assumption.
    + intros r r' Hr. now split.
Qed.
Lemma pool_back_sc nin f e e' : scs e e' -> orel scs (pool_back nin f e) (pool_back nin f e').
Proof.
  intros He. unfold pool_back. assert (L : List.length e = List.length e') by (eapply Forall2_len; exact He). rewrite <- L. eapply (ofold_rel eq scs); [apply F2_eq| |apply F2_repeat, sc_zero].
  intros s s' i ? Hs <-. eapply orel_bind; [apply orel_eq|]. intros ? idx ->. eapply orel_bind; [apply (lget_rel sc); exact He|]. intros v v' Hv. now apply (lsetZ_rel sc).
Qed.
Lemma bsc_back nin a b e e' : bsc a b -> scs e e' -> orel (both scs bsc) (body_back o nin a e) (body_back o' nin b e').
Proof.
  intros Hb He. destruct Hb as [ns ns' H|ns ns' H|ns ns' H|k f ns ns' H]; cbn [body_back].
  - eapply orel_bind; [apply (each_both scs nsc); [exact H|]; intros i p q Hpq; eapply orel_bind; [apply (lget_rel sc); exact He|]; intros x x' Hx; now apply nsc_back|].
    intros (es & k1) (es' & k2) (Hes & Hk). cbn in Hes, Hk. eapply orel_bind; [eapply (ofold_rel scs scs); [exact Hes| |apply F2_repeat, sc_zero]; intros; now apply addErrors_sc|]. intros r r' Hr. split; [exact Hr|now constructor].
  - eapply orel_bind; [apply (each_both scs rsc); [exact H|]; intros i p q Hpq; eapply orel_bind; [apply (lget_rel sc); exact He|]; intros x x' Hx; now apply rsc_back|].
    intros (es & k1) (es' & k2) (Hes & Hk). cbn in Hes, Hk. eapply orel_bind; [eapply (ofold_rel scs scs); [exact Hes| |apply F2_repeat, sc_zero]; intros; now apply addErrors_sc|]. intros r r' Hr. split; [exact Hr|now constructor].
  - eapply orel_bind; [apply (each_both scs gsc); [exact H|]; intros i p q Hpq; eapply orel_bind; [apply (lget_rel sc); exact He|]; intros x x' Hx; now apply gsc_back|].
    intros (es & k1) (es' & k2) (Hes & Hk). cbn in Hes, Hk. eapply orel_bind; [eapply (ofold_rel scs scs); [exact Hes| |apply F2_repeat, sc_zero]; intros; now apply addErrors_sc|]. intros r r' Hr. split; [exact Hr|now constructor].
  - destruct k.
    1,2: eapply orel_bind; [apply conv_back_sc; eassumption|]; intros (q1 & k1) (q2 & k2) (E & Hk); split; [exact E|now constructor].
    1,2: eapply orel_bind; [apply loc_back_sc; eassumption|]; intros (q1 & k1) (q2 & k2) (E & Hk); split; [exact E|now constructor].
    all: eapply orel_bind; [apply pool_back_sc; exact He|]; intros q1 q2 E; split; [exact E|now constructor].
Qed.
Lemma each_trained {A} (R : A -> A -> Prop) f g l l' e e' : Forall2 R l l' -> scs e e' -> (forall a b x y, R a b -> sc x y -> orel R (f a x) (g b y)) -> orel (with_out (Forall2 R)) (each (trained f e) l) (each (trained g e') l').
Proof.
  intros H He Hf. apply each_rel; [exact H|]. intros i p q Hpq. unfold trained. eapply orel_bind; [apply (lget_rel sc); exact He|]. intros x x' Hx. eapply orel_bind; [apply Hf; eassumption|]. intros; now split.
Qed.
Lemma bsc_train a b e e' : bsc a b -> scs e e' -> orel bsc (body_train o a e) (body_train o' b e').
Proof.
  intros Hb He. destruct Hb as [ns ns' H|ns ns' H|ns ns' H|k f ns ns' H]; cbn [body_train].
  - eapply orel_bind; [apply each_trained; [exact H|exact He|intros; now apply nsc_train]|]. intros (q1 & k1) (q2 & k2) (_ & Hk). now constructor.
  - eapply orel_bind; [apply each_trained; [exact H|exact He|intros; now apply rsc_train]|]. intros (q1 & k1) (q2 & k2) (_ & Hk). now constructor.
  - eapply orel_bind; [apply each_trained; [exact H|exact He|intros; now apply gsc_train]|]. intros (q1 & k1) (q2 & k2) (_ & Hk). now constructor.
  - destruct k; try (eapply orel_bind; [apply each_trained; [exact H|exact He|intros; now apply nsc_train]|]; intros (q1 & k1) (q2 & k2) (_ & Hk); now constructor); now constructor.
Qed.
(* layers *)
(* the factors of the regularizations multiplied *)
Definition sopt (op : LOpt) : LOpt := match op with OL1 v => OL1 (fmul c v) | OL2 v => OL2 (fmul c v) | _ => op end.
Lemma mulMask_sc a b mask : scs a b -> scs (mulMask a mask) (mulMask b mask).
Proof.
  intros H. unfold mulMask. apply Forall2_app; [|now apply F2_skipn]. eapply F2_zip; [exact H| |apply F2_eq]. intros x x' y ? Hx <-. now apply sc_mul.
Qed.
Lemma reg_sc (a : @F RNum) v e e' : scs e e' -> scs (map (fun x => fadd x (fmul a v)) e) (map (fun x => fadd x (fmul a (fmul c v))) e').
Proof. intros He. induction He as [|x x' e e' Hx _ IH]; cbn [map]; constructor; auto. apply sc_add; [exact Hx|]. change (a * (c * v) = c * (a * v))%R. ring. Qed.
Lemma back_sc ws ops : forall e e', scs e e' -> scs (opts_back ws ops e) (opts_back ws (map sopt ops) e').
Proof.
  unfold opts_back. induction ops as [|op ops IH]; intros e e' He; [exact He|]. cbn [fold_left map]. apply IH. destruct op; cbn [opt_back sopt]; auto.
  - now apply mulMask_sc.
  - now apply reg_sc.
  - now apply reg_sc.
  - induction He; cbn; constructor; auto. now apply sc_mul.
Qed.
Variable k : nat. (* the options of the last layer *)
Definition lsc (a b : Layer) : Prop := l_in b = l_in a /\ bsc (l_body a) (l_body b) /\ l_opts b = map sopt (l_opts a).
Definition lsc_last (a b : Layer) : Prop := l_in b = l_in a /\ bsc (l_body a) (l_body b) /\ l_opts b = l_opts a ++ [OMult c] /\ List.length (l_opts a) = k.
Lemma lsc_w a b : lsc a b -> layer_weights b = layer_weights a. Proof. intros (_ & H & _). now apply bsc_w. Qed.
Lemma lsc_last_w a b : lsc_last a b -> layer_weights b = layer_weights a. Proof. intros (_ & H & _). now apply bsc_w. Qed.
Lemma testing_more ops : forall out, opts_testing (ops ++ [OMult c]) out = opts_testing ops out.
Proof. unfold opts_testing. induction ops as [|op ops IH]; intros out; cbn [app ofold]; [reflexivity|]. destruct (opt_testing op out); cbn [bind]; auto. Qed.
Lemma training_more rand rand' reset ops : forall i out, (forall j x, j < i + List.length ops -> rand' j x = rand j x) ->
  orel (with_out (fun p q => q = p ++ [OMult c])) (opts_training rand reset i ops out) (opts_training rand' reset i (ops ++ [OMult c]) out).
Proof.
  induction ops as [|op ops IH]; intros i out Hr; cbn [app opts_training]; [split; reflexivity|]. cbn [List.length] in Hr.
  assert (E : opt_training (rand' i) reset op out = opt_training (rand i) reset op out).
  { destruct op; cbn [opt_training]; try reflexivity. destruct reset; [|reflexivity]. f_equal. f_equal; f_equal; apply map_ext; intros x; apply Hr; lia. }
  rewrite E. eapply orel_bind; [apply orel_eq|]. intros ? (o1 & p1) ->. eapply orel_bind; [apply IH; intros; apply Hr; lia|]. intros (q1 & k1) (q2 & k2) (E1 & E2). cbn in E1, E2. subst. split; reflexivity.
Qed.
Lemma testing_sopt ops : forall out, opts_testing (map sopt ops) out = opts_testing ops out.
Proof.
  unfold opts_testing. induction ops as [|op ops IH]; intros out; cbn [map ofold]; [reflexivity|].
  replace (opt_testing (sopt op) out) with (opt_testing op out) by (destruct op; reflexivity). destruct (opt_testing op out); cbn [bind]; auto.
Qed.
Lemma training_sopt rand rand' reset ops : forall i out, (forall j x, rand' j x = rand j x) ->
  orel (with_out (fun p q => q = map sopt p)) (opts_training rand reset i ops out) (opts_training rand' reset i (map sopt ops) out).
Proof.
  induction ops as [|op ops IH]; intros i out Hr; cbn [map opts_training]; [now split|].
  eapply (orel_bind (with_out (fun p q => q = sopt p))).
  - destruct op; cbn [opt_training sopt]; try (now split).
    + assert (E : map (rand' i) (seq 0 (List.length presence)) = map (rand i) (seq 0 (List.length presence))) by (apply map_ext; intros x; apply Hr). rewrite E. now split.
    + destruct (computeSoftmax out); cbn; auto. now split.
  - intros (o1 & p1) (o2 & p2) (E1 & E2). cbn in E1, E2. subst o2 p2. eapply orel_bind; [apply IH; exact Hr|]. intros (q1 & k1) (q2 & k2) (E1 & E2). cbn in E1, E2. subst. now split.
Qed.
Lemma lsc_output a b x t : lsc a b -> orel (with_out lsc) (layer_output a x t) (layer_output b x t).
Proof.
  intros (E1 & Hb & E2). unfold layer_output. rewrite E1, E2. eapply orel_bind; [apply bsc_output; exact Hb|]. intros (o1 & b1) (o2 & b2) (E3 & E4). cbn in E3, E4. subst o2.
  rewrite testing_sopt. eapply orel_bind; [apply orel_eq|]. intros ? u ->. split; [reflexivity|]. cbn. repeat split; auto.
Qed.
Lemma last_output a b x t : lsc_last a b -> orel (with_out lsc_last) (layer_output a x t) (layer_output b x t).
Proof.
  intros (E1 & Hb & E2 & Hk). unfold layer_output. rewrite E1, E2. eapply orel_bind; [apply bsc_output; exact Hb|]. intros (o1 & b1) (o2 & b2) (E3 & E4). cbn in E3, E4. subst o2.
  rewrite testing_more. eapply orel_bind; [apply orel_eq|]. intros ? u ->. split; [reflexivity|]. cbn. repeat split; auto.
Qed.
Lemma lsc_training r r' a b x t : (forall j y, r' j y = r j y) -> lsc a b -> orel (with_out lsc) (layer_outputForTraining r a x t) (layer_outputForTraining r' b x t).
Proof.
  intros Hr (E1 & Hb & E2). unfold layer_outputForTraining. rewrite E1, E2. eapply orel_bind; [apply bsc_output; exact Hb|]. intros (o1 & b1) (o2 & b2) (E3 & E4). cbn in E3, E4. subst o2.
  eapply orel_bind; [apply training_sopt; exact Hr|]. intros (q1 & k1) (q2 & k2) (E5 & E6). cbn in E5, E6. subst. split; [reflexivity|]. cbn. repeat split; auto.
Qed.
Lemma last_training r r' a b x t : (forall j y, j < k -> r' j y = r j y) -> lsc_last a b -> orel (with_out lsc_last) (layer_outputForTraining r a x t) (layer_outputForTraining r' b x t).
Proof.
  intros Hr (E1 & Hb & E2 & Hk). unfold layer_outputForTraining. rewrite E1, E2. eapply orel_bind; [apply bsc_output; exact Hb|]. intros (o1 & b1) (o2 & b2) (E3 & E4). cbn in E3, E4. subst o2.
  rewrite <- Hk in Hr; pose proof (training_more r r' t (l_opts a) 0 o1 Hr) as X. destruct (opts_training r t 0 (l_opts a) o1) as [(u & v)| |] eqn:E, (opts_training r' t 0 (l_opts a ++ [@OMult RNum c]) o1) as [(u' & v')| |]; cbn in X |- *; auto; try contradiction.
  destruct X as (E5 & E6). cbn in E5, E6. subst. split; [reflexivity|]. cbn. repeat split; auto. rewrite <- Hk. eapply opts_training_len; eassumption.
Qed.
Lemma lsc_back a b e e' : lsc a b -> scs e e' -> orel (both scs lsc) (layer_backOutput o a e) (layer_backOutput o' b e').
Proof.
  intros H He. pose proof (lsc_w _ _ H) as W. destruct H as (E1 & Hb & E2). unfold layer_backOutput. rewrite W, E1, E2. eapply orel_bind; [apply bsc_back; [exact Hb|]; now apply back_sc|].
  intros (o1 & b1) (o2 & b2) (E3 & E4). split; [exact E3|]. cbn. repeat split; auto.
Qed.
Lemma mult_sc (e : list (@F RNum)) : scs e (map (fun x => fmul x c) e).
Proof. induction e; cbn [map]; constructor; auto. change (a * c = c * a)%R. ring. Qed.
Lemma last_errors ws ops e : scs (opts_back ws ops e) (opts_back ws (ops ++ [OMult c]) e).
Proof. unfold opts_back. rewrite fold_left_app. cbn [fold_left opt_back]. apply mult_sc. Qed.
Lemma last_back a b e : lsc_last a b -> orel (both scs lsc_last) (layer_backOutput o a e) (layer_backOutput o' b e).
Proof.
  intros H. pose proof (lsc_last_w _ _ H) as W. destruct H as (E1 & Hb & E2 & Hk). unfold layer_backOutput. rewrite W, E1, E2. eapply orel_bind; [apply bsc_back; [exact Hb|]; apply last_errors|].
  intros (o1 & b1) (o2 & b2) (E3 & E4). split; [exact E3|]. cbn. repeat split; auto.
Qed.
Lemma lsc_train a b e e' : lsc a b -> scs e e' -> orel lsc (layer_train o a e) (layer_train o' b e').
Proof.
  intros H He. pose proof (lsc_w _ _ H) as W. destruct H as (E1 & Hb & E2). unfold layer_train. rewrite W, E1, E2. eapply orel_bind; [apply bsc_train; [exact Hb|]; now apply back_sc|].
  intros b1 b2 E4. cbn. repeat split; auto.
Qed.
Lemma last_train a b e : lsc_last a b -> orel lsc_last (layer_train o a e) (layer_train o' b e).
Proof.
  intros H. pose proof (lsc_last_w _ _ H) as W. destruct H as (E1 & Hb & E2 & Hk). unfold layer_train. rewrite W, E1, E2. eapply orel_bind; [apply bsc_train; [exact Hb|]; apply last_errors|].
  intros b1 b2 E4. cbn. repeat split; auto.
Qed.
End Scale.
