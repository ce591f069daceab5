(* C20, C52: recurrent layers and gated recurrent units. *)
From Coq Require Import Reals Lra SpecFloat.
From Verif Require Import Base Num Witness ActModel ActProofs NeuronModel LayerModel NetModel NeuronProofs LayerProofs SafeProofs SafeLayers FactoryModel FactorySpec FactoryProofs
  SafeNet BuildProofs FilterSpec FilterProofs HistProofs FilterProps PoolProofs LOptSpec LOptProps PureSpec PureProps RecSpec.
Local Open Scope nat_scope.

Section P.
Context {N : Num}.
Definition rstep (r : RNeuron) (x : list F) : F := recurrent_step (n_act (r_n r)) (n_bias (r_n r)) (n_w (r_n r)) x (r_lastOut r).
Lemma rec_output_inv r x reset v r' : rec_output r x reset = Ok (v, r') -> v = rstep r x /\ r_lastOut r' = v.
Proof.
  unfold rec_output. set (r0 := if reset then rec_reset r else r).
  assert (Hr : r_n r0 = r_n r /\ r_lastOut r0 = r_lastOut r) by (unfold r0; destruct reset; split; reflexivity). destruct Hr as [-> ->]. cbv zeta.
  intros H. apply bind_Ok_inv in H as (? & _ & H). apply bind_Ok_inv in H as (? & E & H). apply weighted_inv in E as [_ ->].
  apply bind_Ok_inv in H as (? & E1 & H). apply bind_Ok_inv in H as (? & E2 & H). apply lget_Ok in E1, E2. injection H as <- <-. split; [|reflexivity].
  unfold rstep, recurrent_step. rewrite (nth_error_nth _ _ fzero E1), (nth_error_nth _ _ fzero E2). reflexivity.
Qed.
Lemma sgd_rec_last o r e r' : sgd_recurrent o r e = Ok r' -> r_lastOut r' = r_lastOut r.
Proof. unfold sgd_recurrent. cbv zeta. intros H. binds H. injection H as <-. reflexivity. Qed.
Lemma rec_back_last o r e es r' : rec_backOutput o r e = Ok (es, r') -> r_lastOut r' = r_lastOut r.
Proof. unfold rec_backOutput. cbv zeta. intros H. apply bind_Ok_inv in H as (? & _ & H). apply bind_Ok_inv in H as (? & E & H). injection H as _ <-. now apply sgd_rec_last in E. Qed.
Lemma rec_train_last o r e r' : rec_train o r e = Ok r' -> r_lastOut r' = r_lastOut r.
Proof. apply sgd_rec_last. Qed.

(* gated units: the three gates share the last output, the state stays zero *)
Definition gmem (g : GNeuron) (p : F) : Prop := r_lastOut (g_reset g) = p /\ r_lastOut (g_update g) = p /\ r_lastOut (g_output g) = p /\ g_prevOut g = fzero.
Lemma gru_output_mem k g x reset v g' bias : wf_gneuron k g -> List.length x = k -> gset g = [(a_sigmoid, bias); (a_sigmoid, bias); (a_tanh, bias)] ->
  forall p, gmem g p -> gru_output g x reset = Ok (v, g') -> v = gated_step bias (gru_weights g) x p fzero /\ gmem g' v.
Proof.
  intros (_ & W1 & W2 & W3) Hx Hs p (M1 & M2 & M3 & M0) H. unfold gset, nset in Hs. injection Hs as S1 S1' S2 S2' S3 S3'. unfold gru_output in H. set (g0 := if reset then gru_reset g else g) in H.
  assert (G : g_prevOut g0 = fzero /\ g_reset g0 = g_reset g /\ g_update g0 = g_update g /\ g_output g0 = g_output g) by (unfold g0; destruct reset; auto).
  destruct G as (G0 & G1 & G2 & G3). cbv zeta in H. rewrite G0, G1, G2, G3 in H.
  apply bind_Ok_inv in H as ([r ?] & E1 & H). apply bind_Ok_inv in H as ([u ?] & E2 & H). apply bind_Ok_inv in H as ([o ?] & E3 & H).
  apply rec_output_inv in E1 as (-> & _), E2 as (-> & _), E3 as (-> & _). injection H as <- <-.
  assert (L : forall r, wf_rneuron k r -> List.length (n_w (r_n r)) = List.length x + 2) by (intros r [(Hl & _) Hi]; lia).
  pose proof (L _ W1) as L1. pose proof (L _ W2) as L2. pose proof (L _ W3) as L3.
  assert (Q : gate 0 (gru_weights g) x = n_w (r_n (g_reset g)) /\ gate 1 (gru_weights g) x = n_w (r_n (g_update g)) /\ gate 2 (gru_weights g) x = n_w (r_n (g_output g))).
  { unfold gate, gru_weights. rewrite <- L1. split; [|split].
    - cbn [Nat.mul skipn]. rewrite firstn_app, Nat.sub_diag, firstn_all. cbn [firstn]. now rewrite app_nil_r.
    - rewrite Nat.mul_1_l, skipn_app, Nat.sub_diag, skipn_all. cbn [skipn app]. rewrite L1, <- L2, firstn_app, Nat.sub_diag, firstn_all. cbn [firstn]. now rewrite app_nil_r.
    - rewrite app_assoc, skipn_app. rewrite skipn_all2 by (rewrite app_length; lia). rewrite app_length. replace (2 * _ - _) with 0 by lia. cbn [skipn app]. rewrite L1, <- L3. apply firstn_all. }
  destruct Q as (Q1 & Q2 & Q3). split.
  - unfold gated_step, candidate, update_gate, reset_gate. rewrite Q1, Q2, Q3. unfold rstep, set_lastOut. cbn [r_n r_lastOut]. rewrite M1, M2, M3, S1, S1', S2, S2', S3, S3'. reflexivity.
  - unfold gmem, set_lastOut. cbn. auto.
Qed.
Lemma gru_gates_mem o g e a b c g' p : gru_gates o g e = Ok (a, b, c, g') -> gmem g p -> gmem g' p.
Proof.
  unfold gru_gates. cbv zeta. intros H (M1 & M2 & M3 & M0). apply bind_Ok_inv in H as ([? ?] & E1 & H). apply bind_Ok_inv in H as ([? ?] & E2 & H).
  apply bind_Ok_inv in H as (? & _ & H). apply bind_Ok_inv in H as ([? ?] & E3 & H). injection H as _ _ _ <-. apply rec_back_last in E1, E2, E3. unfold gmem. cbn. rewrite E1, E2, E3. auto.
Qed.

(* what a layer remembers *)
Definition bmem (b : Body) (prev : list F) : Prop :=
  match b with
  | BRec ns => map r_lastOut ns = prev
  | BGru ns => Forall2 gmem ns prev
  | _ => True
  end.
Lemma each_map_res {A B} (f : nat -> A -> outcome (B * A)) (h : A -> B) (l : list A) bs l' : (forall i a b a', f i a = Ok (b, a') -> h a' = b) -> each f l = Ok (bs, l') -> map h l' = bs.
Proof.
  intros Hf H. apply each_inv in H as (L1 & L2 & H). apply nth_error_ext. intros i. rewrite nth_error_map. destruct (nth_error l i) as [a|] eqn:Ea.
  - destruct (H i a Ea) as (b & a' & -> & -> & E). cbn. f_equal. eauto.
  - apply nth_error_None in Ea. rewrite !(proj2 (nth_error_None _ _)) by lia. reflexivity.
Qed.
Lemma bmem_back opt nin b e r b' prev : body_back opt nin b e = Ok (r, b') -> bmem b prev -> bmem b' prev.
Proof.
  destruct b as [ns|ns|ns|k f ns]; cbn [body_back].
  - intros H _. binds H. injection H as _ <-. exact I.
  - intros H M. apply bind_Ok_inv in H as ([es ns'] & E & H). apply bind_Ok_inv in H as (? & _ & H). injection H as _ <-. cbn [bmem] in *. rewrite <- M.
    eapply each_keeps; [|exact E]. intros ? ? ? ? E2. apply bind_Ok_inv in E2 as (? & _ & E2). now apply rec_back_last in E2.
  - intros H M. apply bind_Ok_inv in H as ([es ns'] & E & H). apply bind_Ok_inv in H as (? & _ & H). injection H as _ <-. cbn [bmem] in *.
    unfold each in E. revert E. generalize 0. revert es ns'. induction M as [|g p ns prev Hg M IH]; intros es ns' i E; cbn [each_from] in E.
    + injection E as _ <-. constructor.
    + apply bind_Ok_inv in E as ([e1 g1] & E1 & E). apply bind_Ok_inv in E as ([e2 g2] & E2 & E). injection E as _ <-. cbn [fst snd] in *. constructor; [|eapply IH; exact E2].
      apply bind_Ok_inv in E1 as (? & _ & E1). unfold gru_backOutput in E1. apply bind_Ok_inv in E1 as ([[[a1 a2] a3] g3] & E1 & E3). injection E3 as _ <-.
      eapply gru_gates_mem in E1; [|exact Hg]. exact E1.
  - intros H _. destruct k; binds H; injection H as _ <-; exact I.
Qed.
Lemma bmem_train opt b e b' prev : body_train opt b e = Ok b' -> bmem b prev -> bmem b' prev.
Proof.
  destruct b as [ns|ns|ns|k f ns]; cbn [body_train].
  - intros H _. binds H. injection H as <-. exact I.
  - intros H M. apply bind_Ok_inv in H as ([es ns'] & E & H). injection H as <-. cbn [bmem] in *. rewrite <- M.
    eapply each_keeps; [|exact E]. unfold trained. intros ? ? ? ? E2. apply bind_Ok_inv in E2 as (? & _ & E2). apply bind_Ok_inv in E2 as (? & E3 & E2). injection E2 as _ <-. now apply rec_train_last in E3.
  - intros H M. apply bind_Ok_inv in H as ([es ns'] & E & H). injection H as <-. cbn [bmem] in *.
    unfold each in E. revert E. generalize 0. revert es ns'. induction M as [|g p ns prev Hg M IH]; intros es ns' i E; cbn [each_from] in E.
    + injection E as _ <-. constructor.
    + apply bind_Ok_inv in E as ([e1 g1] & E1 & E). apply bind_Ok_inv in E as ([e2 g2] & E2 & E). injection E as _ <-. cbn [fst snd] in *. constructor; [|eapply IH; exact E2].
      unfold trained in E1. apply bind_Ok_inv in E1 as (? & _ & E1). apply bind_Ok_inv in E1 as (? & E1 & E3). injection E3 as _ <-. unfold gru_train in E1.
      apply bind_Ok_inv in E1 as ([[[a1 a2] a3] g3] & E1 & E3). injection E3 as <-. eapply gru_gates_mem in E1; [|exact Hg]. exact E1.
  - intros H _. destruct k; binds H; injection H as <-; exact I.
Qed.

Definition rec_like (d : LDesc) (b : Body) : Prop :=
  match b with
  | BRec ns => d_type d = t_rec /\ Forall (fun r => nset (r_n r) = (d_act d, d_bias d)) ns
  | BGru ns => d_type d = t_gru /\ Forall (fun g => gset g = [(a_sigmoid, d_bias d); (a_sigmoid, d_bias d); (a_tanh, d_bias d)]) ns
  | _ => False
  end.
Lemma concat_same {A} (c : list A) (ls : list (list A)) : forall n, Forall (fun l => List.length l = List.length c) ls -> List.length ls = n -> List.concat ls = List.concat (repeat c n) -> Forall (fun l => l = c) ls.
Proof.
  induction ls as [|l t IH]; intros n H Hn E; [constructor|]. inversion H as [|? ? Hl Ht]; subst. cbn [List.length repeat List.concat] in E.
  assert (l = c /\ List.concat t = List.concat (repeat c (List.length t))) as [-> E'].
  { split; [apply (f_equal (firstn (List.length c))) in E|apply (f_equal (skipn (List.length c))) in E].
    - rewrite <- Hl in E at 1. rewrite !firstn_app, !Nat.sub_diag, !firstn_all in E. cbn [firstn] in E. now rewrite !app_nil_r in E.
    - rewrite <- Hl in E at 1. rewrite !skipn_app, !Nat.sub_diag, !skipn_all in E. exact E. }
  constructor; eauto.
Qed.
Lemma fresh_state d s l0 l : fresh_layer d s l0 -> works l0 l -> Forall (fun x => 0 < x) s -> d_type d = t_rec \/ d_type d = t_gru -> d_opts d = [] ->
  exists m, wf_layer (cell_count s) l m /\ l_opts l = [] /\ rec_like d (l_body l) /\ getNumberOfNeurons l = getNumberOfNeurons l0 /\ l_in l = cell_count s /\
    bmem (l_body l0) (repeat fzero (getNumberOfNeurons l0)).
Proof.
  intros (draws & masks & Hb & HV) HW Hs Ht Ho. assert (Hk : sane_kernel d) by (unfold sane_kernel; destruct Ht as [-> | ->]; exact I).
  pose proof Hb as HB. apply build_layer_built in HB; auto. assert (HP : supported_pooling l0). { destruct HB; try exact I; destruct Ht; congruence. }
  pose proof (built_wf _ _ _ _ _ Hs HB HV HP) as W0. destruct (works_wf _ _ _ _ W0 HW) as (W & SL & SS).
  exists (cell_count (getShapeOfOutput l0)). split; [exact W|]. split.
  { apply works_opts in HW. destruct (built_finish _ _ _ _ _ Hb) as (nin & b & ->). cbn [finish l_opts] in HW. rewrite Ho in HW. cbn in HW. now inversion HW. }
  destruct (same_layer_shape _ _ SL) as [_ E2]. destruct SL as (SI & SK & _). destruct HB; try (destruct Ht; congruence).
  - cbn [finish l_body] in *. destruct (build_neurons_inv _ _ _ H1) as (L & Hi). destruct SK as [SK1 SK2]. destruct (l_body l) as [|ns'| |]; try contradiction. cbn [settings body_weights] in *. rewrite !map_length in SK1. split; [|split; [exact E2|]].
    + split; [exact H|]. apply Forall_of_nth. intros i a Ha. apply (f_equal (fun l => nth_error l i)) in SS. rewrite !nth_error_map, Ha in SS. cbn in SS. destruct (nth_error ns i) as [b|] eqn:Eb; [|discriminate]. cbn in SS. injection SS as Q1 Q2. unfold nset. rewrite Q1, Q2.
      specialize (Hi i b Eb). unfold rneuron_init in Hi. replace (cell_count s + 2) with (S (S (cell_count s))) in Hi by lia. cbn [neuron_init bind] in Hi. injection Hi as <-. reflexivity.
    + split; [exact SI|]. unfold getNumberOfNeurons, layer_weights. cbn [finish l_body body_weights bmem]. rewrite map_length. apply nth_error_ext. intros i. rewrite nth_error_map. destruct (nth_error ns i) as [b|] eqn:Eb; cbn.
      * rewrite nth_error_repeat by (apply nth_error_Some; congruence). f_equal. specialize (Hi i b Eb). unfold rneuron_init in Hi. apply bind_Ok_inv in Hi as (? & _ & Hi). injection Hi as <-. reflexivity.
      * symmetry. apply nth_error_None. rewrite repeat_length. now apply nth_error_None.
  - cbn [finish l_body] in *. destruct (build_neurons_inv _ _ _ H1) as (L & Hi). destruct SK as [SK1 SK2]. destruct (l_body l) as [| |ns'|]; try contradiction. cbn [settings body_weights] in *. rewrite !map_length in SK1.
    assert (G : forall i b, nth_error ns i = Some b -> gset b = [(a_sigmoid, d_bias d); (a_sigmoid, d_bias d); (a_tanh, d_bias d)] /\ gmem b fzero).
    { intros i b Eb. specialize (Hi i b Eb). unfold gru_init, rneuron_init in Hi. replace (cell_count s + 2) with (S (S (cell_count s))) in Hi by lia. cbn [neuron_init bind] in Hi. injection Hi as <-. split; [reflexivity|]. repeat split. }
    split; [|split; [exact E2|]].
    + split; [exact H|]. rewrite !flat_gset in SS. assert (Q : map gset ns = repeat [(a_sigmoid, d_bias d); (a_sigmoid, d_bias d); (a_tanh, d_bias d)] (List.length ns)).
      { apply nth_error_ext. intros i. rewrite nth_error_map. destruct (nth_error ns i) as [b|] eqn:Eb; cbn.
        - rewrite nth_error_repeat by (apply nth_error_Some; congruence). f_equal. now apply (G i b).
        - symmetry. apply nth_error_None. rewrite repeat_length. now apply nth_error_None. }
      rewrite Q in SS. apply concat_same in SS; [|apply Forall_forall; intros z Hz; apply in_map_iff in Hz as (? & <- & _); reflexivity|rewrite map_length; exact SK1].
      rewrite Forall_map in SS. exact SS.
    + split; [exact SI|]. unfold getNumberOfNeurons, layer_weights. cbn [finish l_body body_weights bmem]. rewrite map_length. clear -G. revert G. induction ns as [|b t IH]; intros G; [constructor|]. cbn [List.length repeat]. constructor.
      * apply (G 0 b). reflexivity.
      * apply IH. intros i. exact (G (S i)).
Qed.
Lemma body_values k d b m prev x reset : wf_body k b m -> List.length x = k -> rec_like d b -> bmem b prev -> exists o b', body_output b x reset = Ok (o, b') /\ bmem b' o /\ List.length o = List.length prev /\
  forall i w p, nth_error (body_weights b) i = Some w -> nth_error prev i = Some p ->
    nth_error o i = Some (match d_type d with t_rec => recurrent_step (d_act d) (d_bias d) w x p | _ => gated_step (d_bias d) w x p fzero end).
Proof.
  intros W Hx Hl M. destruct (body_output_wf k b x reset m W Hx) as (o & b' & E & _ & _ & _). exists o, b'. split; [exact E|]. destruct b as [ns|ns|ns|]; try contradiction; cbn [rec_like bmem body_weights body_output wf_body] in *.
  - destruct Hl as [Ht Hl]. apply bind_Ok_inv in E as ([o1 ns'] & E & E2). injection E2 as -> <-. pose proof (each_inv _ _ _ _ E) as (L1 & L2 & Hj). split; [|split].
    + cbn [bmem]. eapply each_map_res; [|exact E]. intros ? ? ? ? E2. now apply rec_output_inv in E2.
    + rewrite <- M, map_length. exact L1.
    + intros i w p Hw Hp. rewrite <- M in Hp. rewrite nth_error_map in Hw, Hp. destruct (nth_error ns i) as [r|] eqn:Er; [|discriminate]. cbn in Hw, Hp. injection Hw as <-. injection Hp as <-.
      destruct (Hj i r Er) as (v & r' & -> & _ & Ev). apply rec_output_inv in Ev as [-> _]. pose proof (Forall_nth_error _ _ _ _ Hl Er) as Hn. unfold nset in Hn. injection Hn as Ha Hb. rewrite Ht. unfold rstep. now rewrite Ha, Hb.
  - destruct Hl as [Ht Hl]. destruct W as [_ W]. apply bind_Ok_inv in E as ([o1 ns'] & E & E2). injection E2 as -> <-. rewrite Ht. pose proof (each_inv _ _ _ _ E) as (L1 & L2 & Hj). pose proof (Forall2_len _ _ _ M) as LM.
    assert (V : forall i g p, nth_error ns i = Some g -> nth_error prev i = Some p -> exists g', nth_error o i = Some (gated_step (d_bias d) (gru_weights g) x p fzero) /\ nth_error ns' i = Some g' /\ gmem g' (gated_step (d_bias d) (gru_weights g) x p fzero)).
    { intros i g p Hg Hp. destruct (Hj i g Hg) as (v & g' & -> & -> & Ev). eapply gru_output_mem in Ev as [-> Mg]; [eexists; eauto|eapply Forall_nth_error; eauto|exact Hx|exact (Forall_nth_error _ _ _ _ Hl Hg)|].
      clear -M Hg Hp. revert i Hg Hp. induction M; intros [|i] Hg Hp; cbn in *; try discriminate; [injection Hg as <-; now injection Hp as <-|eauto]. }
    split; [|split; [congruence|]].
    + cbn [bmem]. assert (A : List.length ns' = List.length o) by congruence. assert (B : List.length o = List.length ns) by congruence. assert (HH : forall i g' v, nth_error ns' i = Some g' -> nth_error o i = Some v -> gmem g' v).
      { intros i g' v Hg' Hv. destruct (nth_error ns i) as [g|] eqn:Eg; [|apply nth_error_None in Eg; assert (i < List.length o) by (apply nth_error_Some; congruence); lia].
        destruct (nth_error prev i) as [p|] eqn:Ep; [|apply nth_error_None in Ep; assert (i < List.length ns) by (apply nth_error_Some; congruence); lia].
        destruct (V i g p Eg Ep) as (g'' & V1 & V2 & V3). congruence. }
      clear -A HH. revert o A HH. induction ns' as [|g t IH]; intros [|v o] A HH; cbn in A; try discriminate; constructor; [apply (HH 0); reflexivity|]. apply IH; [lia|]. intros i. exact (HH (S i)).
    + intros i w p Hw Hp. rewrite nth_error_map in Hw. destruct (nth_error ns i) as [g|] eqn:Eg; [|discriminate]. cbn in Hw. injection Hw as <-. destruct (V i g p Eg Hp) as (g' & V1 & _). exact V1.
Qed.
Lemma remembers_state d s l0 prev l : fresh_layer d s l0 -> remembers l0 prev l -> Forall (fun x => 0 < x) s -> d_type d = t_rec \/ d_type d = t_gru -> d_opts d = [] ->
  works l0 l /\ bmem (l_body l) prev /\ List.length prev = getNumberOfNeurons l.
Proof.
  intros Hf H Hs Ht Ho. induction H as [|prev l x reset o l' _ (HW & M & L) Hx E|prev l rand x reset o l' _ (HW & M & L) Hx E|prev l opt e r l' _ (HW & M & L) He E|prev l opt e l' _ (HW & M & L) He E].
  - split; [apply works_none|]. split; [|now rewrite repeat_length]. destruct (fresh_state d s l0 l0 Hf (works_none _) Hs Ht Ho) as (m & _ & _ & _ & _ & _ & M). exact M.
  - assert (HW' : works l0 l') by (eapply works_trans; [exact HW|eapply works_output; [exact Hx|exact E|apply works_none]]). split; [exact HW'|].
    destruct (fresh_state d s l0 l Hf HW Hs Ht Ho) as (m & W & O & Rl & Nn & Hi & _). destruct (fresh_state d s l0 l' Hf HW' Hs Ht Ho) as (_ & _ & _ & _ & Nn' & _). rewrite Nn', <- Nn, <- L.
    destruct (body_values (cell_count s) d (l_body l) m prev x reset) as (o1 & b1 & E1 & M1 & L1 & _); try assumption; [apply W|congruence|]. unfold layer_output in E. rewrite E1, O in E. cbn [bind opts_testing ofold] in E. injection E as <- <-. auto.
  - assert (HW' : works l0 l') by (eapply works_trans; [exact HW|eapply works_training; [exact Hx|exact E|apply works_none]]). split; [exact HW'|].
    destruct (fresh_state d s l0 l Hf HW Hs Ht Ho) as (m & W & O & Rl & Nn & Hi & _). destruct (fresh_state d s l0 l' Hf HW' Hs Ht Ho) as (_ & _ & _ & _ & Nn' & _). rewrite Nn', <- Nn, <- L.
    destruct (body_values (cell_count s) d (l_body l) m prev x reset) as (o1 & b1 & E1 & M1 & L1 & _); try assumption; [apply W|congruence|]. unfold layer_outputForTraining in E. rewrite E1, O in E. cbn [bind opts_training] in E. injection E as <- <-. auto.
  - assert (HW' : works l0 l') by (eapply works_trans; [exact HW|eapply works_back; [exact He|exact E|apply works_none]]). split; [exact HW'|].
    destruct (fresh_state d s l0 l Hf HW Hs Ht Ho) as (m & W & O & Rl & Nn & Hi & _). destruct (fresh_state d s l0 l' Hf HW' Hs Ht Ho) as (_ & _ & _ & _ & Nn' & _). rewrite Nn', <- Nn. split; [|exact L].
    unfold layer_backOutput in E. cbv zeta in E. apply bind_Ok_inv in E as ([? b] & E & E2). injection E2 as _ <-. cbn [l_body]. eapply bmem_back; eauto.
  - assert (HW' : works l0 l') by (eapply works_trans; [exact HW|eapply works_train; [exact He|exact E|apply works_none]]). split; [exact HW'|].
    destruct (fresh_state d s l0 l Hf HW Hs Ht Ho) as (m & W & O & Rl & Nn & Hi & _). destruct (fresh_state d s l0 l' Hf HW' Hs Ht Ho) as (_ & _ & _ & _ & Nn' & _). rewrite Nn', <- Nn. split; [|exact L].
    unfold layer_train in E. cbv zeta in E. apply bind_Ok_inv in E as (b & E & E2). injection E2 as <-. cbn [l_body]. eapply bmem_train; eauto.
Qed.
Lemma rec_values d s l0 prev l x reset : fresh_layer d s l0 -> remembers l0 prev l -> Forall (fun x => 0 < x) s -> d_type d = t_rec \/ d_type d = t_gru -> d_opts d = [] ->
  List.length x = cell_count s -> exists o, (exists l', layer_output l x reset = Ok (o, l')) /\ (forall rand, exists l', layer_outputForTraining rand l x reset = Ok (o, l')) /\
  List.length o = getNumberOfNeurons l /\ List.length prev = getNumberOfNeurons l /\
  forall i w p, nth_error (layer_weights l) i = Some w -> nth_error prev i = Some p ->
    nth_error o i = Some (match d_type d with t_rec => recurrent_step (d_act d) (d_bias d) w x p | _ => gated_step (d_bias d) w x p fzero end).
Proof.
  intros Hf H Hs Ht Ho Hx. destruct (remembers_state _ _ _ _ _ Hf H Hs Ht Ho) as (HW & M & L). destruct (fresh_state d s l0 l Hf HW Hs Ht Ho) as (m & W & O & Rl & Nn & Hi & _).
  destruct (body_values (cell_count s) d (l_body l) m prev x reset) as (o & b1 & E1 & M1 & L1 & V); try assumption; [apply W|]. exists o. unfold layer_output, layer_outputForTraining. rewrite E1, O. cbn [bind opts_testing ofold opts_training].
  split; [eauto|]. split; [eauto|]. split; [congruence|]. split; [exact L|exact V].
Qed.

(* ================= C52 ================= *)
(* A recurrent layer, whatever its weights and history: the next output of each neuron is f(w.x + previous * wr + bias * wb) where previous is
   the last value it gave (zero at first), for prediction and for training, whatever temporalReset. *)
Theorem C52_recurrent : forall d s l0 prev l, fresh_layer d s l0 -> d_type d = t_rec -> d_opts d = [] -> Forall (fun x => 0 < x) s -> remembers l0 prev l ->
  forall x reset, List.length x = cell_count s -> exists o,
    (exists l', layer_output l x reset = Ok (o, l')) /\ (forall rand, exists l', layer_outputForTraining rand l x reset = Ok (o, l')) /\
    List.length o = getNumberOfNeurons l /\ List.length prev = getNumberOfNeurons l /\
    forall i w p, nth_error (layer_weights l) i = Some w -> nth_error prev i = Some p -> nth_error o i = Some (recurrent_step (d_act d) (d_bias d) w x p).
Proof. intros d s l0 prev l Hf Ht Ho Hs H x reset Hx. destruct (rec_values d s l0 prev l x reset Hf H Hs (or_introl Ht) Ho Hx) as (o & A & B & C & D & E). rewrite Ht in E. exists o. auto. Qed.
(* A gated recurrent unit uses the last value in its gates, but combines the candidate with zero instead of the last value. *)
Theorem C52_gru_partial : forall d s l0 prev l, fresh_layer d s l0 -> d_type d = t_gru -> d_opts d = [] -> Forall (fun x => 0 < x) s -> remembers l0 prev l ->
  forall x reset, List.length x = cell_count s -> exists o,
    (exists l', layer_output l x reset = Ok (o, l')) /\ (forall rand, exists l', layer_outputForTraining rand l x reset = Ok (o, l')) /\
    List.length o = getNumberOfNeurons l /\ List.length prev = getNumberOfNeurons l /\
    forall i w p, nth_error (layer_weights l) i = Some w -> nth_error prev i = Some p -> nth_error o i = Some (gated_step (d_bias d) w x p fzero).
Proof. intros d s l0 prev l Hf Ht Ho Hs H x reset Hx. destruct (rec_values d s l0 prev l x reset Hf H Hs (or_intror Ht) Ho Hx) as (o & A & B & C & D & E). rewrite Ht in E. exists o. auto. Qed.

(* ================= C20 ================= *)
(* temporalReset changes nothing in the output of a recurrent layer or gated recurrent units: the value given before is still used. *)
Theorem C20_reset_ignored_refuted : forall d s l0 prev l, fresh_layer d s l0 -> d_type d = t_rec \/ d_type d = t_gru -> d_opts d = [] -> Forall (fun x => 0 < x) s -> remembers l0 prev l ->
  forall x, List.length x = cell_count s -> exists o l1 l2, layer_output l x true = Ok (o, l1) /\ layer_output l x false = Ok (o, l2).
Proof.
  intros d s l0 prev l Hf Ht Ho Hs H x Hx. destruct (rec_values d s l0 prev l x true Hf H Hs Ht Ho Hx) as (o & (l1 & A) & _ & C & D & E).
  destruct (rec_values d s l0 prev l x false Hf H Hs Ht Ho Hx) as (o' & (l2 & A') & _ & C' & _ & E'). assert (o' = o) as ->; [|eauto].
  apply nth_error_ext. intros i. destruct (Nat.lt_ge_cases i (List.length o)) as [Hi|Hi]; [|rewrite !(proj2 (nth_error_None _ _)) by lia; reflexivity].
  destruct (nth_error (layer_weights l) i) as [w|] eqn:Ew; [|apply nth_error_None in Ew; unfold getNumberOfNeurons in *; lia].
  destruct (nth_error prev i) as [p|] eqn:Ep; [|apply nth_error_None in Ep; lia]. rewrite (E i w p Ew Ep), (E' i w p Ew Ep). reflexivity.
Qed.
End P.
Print Assumptions C52_recurrent.
Print Assumptions C52_gru_partial.
Print Assumptions C20_reset_ignored_refuted.

(* ---------- exact arithmetic: what the gated unit should give ---------- *)
Lemma tanh_incr x y : (x < y)%R -> (tanh x < tanh y)%R.
Proof.
  intros H. rewrite !tanh_exp. pose proof (exp_increasing (2 * x) (2 * y) ltac:(lra)). pose proof (exp_pos (2 * x)). pose proof (exp_pos (2 * y)).
  assert (/ (exp (2 * y) + 1) < / (exp (2 * x) + 1))%R by (apply Rinv_lt_contravar; [apply Rmult_lt_0_compat; lra|lra]). unfold Rdiv. lra.
Qed.
Lemma sigmoid_R x : @act RNum a_sigmoid x = ((tanh (x / 2) + 1) / 2)%R.
Proof. cbn [act]. unfold fone. rewrite !RNum_fofZ. reflexivity. Qed.
Lemma sigmoid_bound x : (0 < @act RNum a_sigmoid x < 1)%R.
Proof. rewrite sigmoid_R. pose proof (tanh_bound (x / 2)). lra. Qed.
Lemma sigmoid_incr x y : (x < y)%R -> (@act RNum a_sigmoid x < @act RNum a_sigmoid y)%R.
Proof. intros H. rewrite !sigmoid_R. pose proof (tanh_incr (x / 2) (y / 2) ltac:(lra)). lra. Qed.

(* In exact arithmetic the gated unit gives something else than update * candidate + (1 - update) * previous, for every weights, history and
   input, as soon as its last value was not zero. *)
Theorem C52_gru_refuted : forall d s l0 prev l, @fresh_layer RNum d s l0 -> d_type d = t_gru -> d_opts d = [] -> Forall (fun x => 0 < x) s -> remembers l0 prev l ->
  forall x reset o l', List.length x = cell_count s -> layer_output l x reset = Ok (o, l') ->
    forall i w p v, nth_error (layer_weights l) i = Some w -> nth_error prev i = Some p -> p <> 0%R -> nth_error o i = Some v -> v <> @gated_step RNum (d_bias d) w x p p.
Proof.
  intros d s l0 prev l Hf Ht Ho Hs H x reset o l' Hx E i w p v Hw Hp Hne Hv.
  destruct (C52_gru_partial d s l0 prev l Hf Ht Ho Hs H x reset Hx) as (o1 & (l1 & E1) & _ & _ & _ & V). rewrite E in E1. injection E1 as <- <-.
  rewrite (V i w p Hw Hp) in Hv. injection Hv as <-. unfold gated_step, update_gate, recurrent_step. set (u := @act RNum a_sigmoid _). pose proof (sigmoid_bound ((weighted_sum x (gate 1 w x) + p * nth (List.length x) (gate 1 w x) fzero)%num + (d_bias d * nth (S (List.length x)) (gate 1 w x) fzero))%R) as Hu.
  change (@act RNum a_sigmoid _) with u in Hu. set (c := candidate _ _ _ _). unfold fone, fzero. rewrite !RNum_fofZ. cbn [fadd fmul fsub RNum]. intros Q.
  change (@F RNum) with R in *. assert (((1 - u) * p)%R = 0%R) by lra. apply Rmult_integral in H0 as [H0|H0]; [|contradiction]. lra.
Qed.
Print Assumptions C52_gru_refuted.

(* one unit, one input, all weights 1: the same input flagged as the first of a sequence gives another value the second time *)
Definition one_draws : nat -> nat -> nat -> @F RNum := fun _ _ _ => 1%R.
Lemma valid_R (n : @Neuron RNum) : (n_bias n = 1)%R -> n_w n = [1; 1; 1]%R -> neuron_isValid n = 0%Z.
Proof.
  intros Hb Hw. unfold neuron_isValid. rewrite Hb, Hw. unfold fgtb. cbn [existsb List.length Nat.eqb]. rewrite !RNum_fofZ. cbn [fltb RNum]. unfold Rltb.
  destruct (Rlt_dec 1 (-100000)); [lra|]. destruct (Rlt_dec 10000 1); [lra|]. reflexivity.
Qed.
Definition one_rec (a : activation) : @RNeuron RNum :=
  @mkRNeuron RNum (@mkNeuron RNum 1 1 [1; 1; Rabs 1]%R fone (circ_init 1 3) (circ_init 1 1) [fzero] fzero a) fzero fzero fzero fzero.
Definition one_gru : @GNeuron RNum := @mkGNeuron RNum 1 [] fzero fzero fzero fzero (one_rec a_sigmoid) (one_rec a_sigmoid) (one_rec a_tanh).
Lemma one_rec_valid a : rec_isValid (one_rec a) = 0%Z.
Proof. unfold rec_isValid. apply valid_R; cbn [one_rec r_n n_bias n_w]; [unfold fone; apply RNum_fofZ|now rewrite Rabs_R1]. Qed.
Lemma real_rec_layer : @fresh_layer RNum (@Recurrence RNum 1 a_identity []) [1] (@mkLayer RNum 1 (BRec [one_rec a_identity]) []).
Proof.
  exists one_draws, (fun _ _ => true). split; [reflexivity|]. change (neurons_isValid [rec_isValid (one_rec a_identity)] = 0%Z). rewrite one_rec_valid. reflexivity.
Qed.
Lemma real_gru_layer : @fresh_layer RNum (@GruLayer RNum 1 []) [1] (@mkLayer RNum 1 (BGru [one_gru]) []).
Proof.
  exists one_draws, (fun _ _ => true). split; [reflexivity|]. change (neurons_isValid [gru_isValid one_gru] = 0%Z). unfold gru_isValid, one_gru. cbn [g_reset g_update g_output]. rewrite !one_rec_valid. reflexivity.
Qed.
Definition again (d : @LDesc RNum) : Prop := exists s l0 x o1 l1 o2 l2, fresh_layer d s l0 /\ Forall (fun x => 0 < x) s /\ List.length x = cell_count s /\
  layer_output l0 x true = Ok (o1, l1) /\ layer_output l1 x true = Ok (o2, l2) /\ layer_weights l1 = layer_weights l0 /\ o1 <> o2.
Lemma one_step (a : activation) (p : R) (w : list R) : w = [1; 1; Rabs 1]%R -> @recurrent_step RNum a fone w [1%R] p = @act RNum a (2 + p)%R.
Proof. intros ->. unfold recurrent_step, weighted_sum. cbn [combine fold_left List.length nth fst snd]. unfold fone, fzero. rewrite !RNum_fofZ, Rabs_R1. cbn [fadd fmul RNum]. f_equal. ring. Qed.
Lemma first_out l0 (x : list R) r o l : @layer_output RNum l0 x r = Ok (o, l) -> List.length x = l_in l0 -> remembers l0 o l.
Proof. intros E H. eapply rem_output; [apply rem_new|exact H|exact E]. Qed.
Theorem C20_refuted : again (@Recurrence RNum 1 a_identity []) /\ again (@GruLayer RNum 1 []).
Proof.
  split.
  - exists [1], (@mkLayer RNum 1 (BRec [one_rec a_identity]) []), [1%R].
    destruct (C52_recurrent _ [1] _ _ _ real_rec_layer eq_refl eq_refl ltac:(repeat constructor) (rem_new _) [1%R] true eq_refl) as (o1 & (l1 & E1) & _ & L1 & _ & V1).
    pose proof (first_out _ [1%R] _ _ _ E1 eq_refl) as M1.
    destruct (C52_recurrent _ [1] _ _ _ real_rec_layer eq_refl eq_refl ltac:(repeat constructor) M1 [1%R] true eq_refl) as (o2 & (l2 & E2) & _ & L2 & _ & V2).
    exists o1, l1, o2, l2. split; [exact real_rec_layer|]. split; [repeat constructor|]. split; [reflexivity|]. split; [exact E1|]. split; [exact E2|]. pose proof (layer_output_w _ _ _ _ _ E1) as HW. split; [exact HW|].
    rewrite HW in V2. cbn [layer_weights l_body body_weights map one_rec r_n n_w] in V1, V2. specialize (V1 0 _ _ eq_refl eq_refl). cbn [d_act d_bias Recurrence] in *. rewrite one_step in V1 by reflexivity. specialize (V2 0 _ _ eq_refl V1). rewrite one_step in V2 by reflexivity.
    intros <-. rewrite V1 in V2. apply (f_equal (fun o => match o with Some v => v | None => 0%R end)) in V2. revert V2. cbv beta iota. cbn [act]. unfold fzero. rewrite RNum_fofZ. change (@F RNum) with R. intros V2. lra.
  - exists [1], (@mkLayer RNum 1 (BGru [one_gru]) []), [1%R].
    destruct (C52_gru_partial _ [1] _ _ _ real_gru_layer eq_refl eq_refl ltac:(repeat constructor) (rem_new _) [1%R] true eq_refl) as (o1 & (l1 & E1) & _ & L1 & _ & V1).
    pose proof (first_out _ [1%R] _ _ _ E1 eq_refl) as M1.
    destruct (C52_gru_partial _ [1] _ _ _ real_gru_layer eq_refl eq_refl ltac:(repeat constructor) M1 [1%R] true eq_refl) as (o2 & (l2 & E2) & _ & L2 & _ & V2).
    exists o1, l1, o2, l2. split; [exact real_gru_layer|]. split; [repeat constructor|]. split; [reflexivity|]. split; [exact E1|]. split; [exact E2|]. pose proof (layer_output_w _ _ _ _ _ E1) as HW. split; [exact HW|].
    rewrite HW in V2. cbn [layer_weights l_body body_weights map] in V1, V2. specialize (V1 0 _ _ eq_refl eq_refl). specialize (V2 0 _ _ eq_refl V1). cbn [d_bias GruLayer] in *.
    set (W := gru_weights one_gru) in *. assert (G : forall i, i < 3 -> gate i W [1%R] = [1; 1; Rabs 1]%R) by (intros [|[|[|i]]] Hi; try reflexivity; lia).
    assert (St : forall p : R, @gated_step RNum fone W [1%R] p fzero = (@act RNum a_sigmoid (2 + p) * tanh (2 + p * @act RNum a_sigmoid (2 + p)))%R).
    { intros p. unfold gated_step, candidate, update_gate, reset_gate. rewrite !G by lia. rewrite !one_step by reflexivity. unfold fzero. rewrite RNum_fofZ. cbn [fadd fmul fsub RNum]. change (@act RNum a_tanh) with tanh. change (@F RNum) with R. ring. }
    rewrite St in V1. rewrite !St in V2. intros <-. rewrite V1 in V2. apply (f_equal (fun o => match o with Some v => v | None => 0%R end)) in V2. revert V2. cbv beta iota. unfold fzero. rewrite RNum_fofZ. change (@F RNum) with R.
    set (h := (@act RNum a_sigmoid (2 + 0) * tanh (2 + 0 * @act RNum a_sigmoid (2 + 0)))%R).
    assert (T0 : (0 < tanh 2)%R) by (rewrite tanh_exp; pose proof (exp_increasing 0 (2 * 2) ltac:(lra)) as Ex; rewrite exp_0 in Ex; assert (2 / (exp (2 * 2) + 1) < 1)%R by (apply Rmult_lt_reg_r with (exp (2 * 2) + 1)%R; [lra|]; unfold Rdiv; rewrite Rmult_assoc, Rinv_l; lra); lra). assert (T2 : (tanh (2 + 0 * @act RNum a_sigmoid (2 + 0)) = tanh 2)%R) by (f_equal; change (@F RNum) with R; ring).
    pose proof (sigmoid_bound (2 + 0)%R) as S0. assert (Hh : (0 < h)%R) by (unfold h; rewrite T2; apply Rmult_lt_0_compat; [apply S0|exact T0]). intros Q.
    pose proof (sigmoid_incr (2 + 0)%R (2 + h)%R ltac:(lra)) as SI. pose proof (sigmoid_bound (2 + h)%R) as Sh. assert (TI : (tanh 2 < tanh (2 + h * @act RNum a_sigmoid (2 + h)))%R) by (apply tanh_incr; pose proof (Rmult_lt_0_compat _ _ Hh (proj1 Sh)); lra).
    assert ((@act RNum a_sigmoid (2 + 0) * tanh 2 < @act RNum a_sigmoid (2 + h) * tanh (2 + h * @act RNum a_sigmoid (2 + h)))%R) by (apply Rmult_gt_0_lt_compat; lra).
    assert (Q2 : h = (@act RNum a_sigmoid (2 + 0) * tanh 2)%R) by (unfold h; rewrite T2; reflexivity). rewrite <- Q2 in H. clear - Q H. change (@F RNum) with R in *. rewrite <- Q in H. exact (Rlt_irrefl _ H).
Qed.
Print Assumptions C20_refuted.
(* the hypotheses of C52 and C20 hold with a non-zero last output, after a training step *)
Example C52_hypotheses : exists l prev, remembers (@mkLayer RNum 1 (BRec [one_rec a_identity]) []) prev l /\ exists p, prev = [p] /\ p <> 0%R.
Proof.
  destruct (C52_recurrent _ [1] _ _ _ real_rec_layer eq_refl eq_refl ltac:(repeat constructor) (rem_new _) [1%R] true eq_refl) as (o1 & (l1 & E1) & _ & L1 & _ & V1).
  pose proof (first_out _ [1%R] _ _ _ E1 eq_refl) as M1. exists l1, o1. split; [exact M1|].
  specialize (V1 0 _ _ eq_refl eq_refl). cbn [d_act d_bias Recurrence] in *. rewrite one_step in V1 by reflexivity. destruct o1 as [|v [|v2 t]]; cbn in V1; [discriminate| |].
  - injection V1 as ->. eexists. split; [reflexivity|]. cbv [act fzero fofZ flit RNum]. lra.
  - pose proof (layer_output_w _ _ _ _ _ E1) as HW. unfold getNumberOfNeurons in L1. cbn in L1. discriminate.
Qed.
