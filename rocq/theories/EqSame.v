(* Equal networks compute the same outputs, whatever the inputs and for any number of predictions. *)
From Coq Require Import String Reals SpecFloat.
From Verif Require Import Base Num NumOrder ActModel NeuronModel LayerModel NetModel NeuronProofs LayerProofs SafeProofs SafeLayers StatModel WaitModel DataModel FactoryModel FactorySpec FactoryProofs FilterSpec
  SafeNet BuildProofs FilterProofs HistProofs PoolProofs FilterProps PureProps TrainModel SaveModel SaveSpec EqModel EqProofs EqOutputs AlikeProofs.
Local Open Scope outcome_scope.
Local Open Scope nat_scope.

Section P.
Context {N : Num}.
(* == on these numbers is identity *)
Variable exact : F -> Prop.
Hypothesis HX : forall x y, exact x -> exact y -> feqb x y = true -> x = y.
Lemma vec_exact a b : Forall exact a -> Forall exact b -> vec_eqb feqb a b = true -> a = b.
Proof.
  intros Ha. revert b. induction Ha as [|x a Hx _ IH]; intros [|y b] Hb; cbn; auto; try discriminate. rewrite Bool.andb_true_iff. inversion Hb; subst. intros []. f_equal; auto.
Qed.
Lemma vecs_exact a b : Forall exact (List.concat a) -> Forall exact (List.concat b) -> vec_eqb (vec_eqb feqb) a b = true -> a = b.
Proof.
  revert b. induction a as [|x a IH]; intros [|y b]; cbn; auto; try discriminate. rewrite !Forall_app, Bool.andb_true_iff. intros [] [] []. f_equal; [now apply vec_exact|auto].
Qed.
Lemma circ_exact a b : Forall exact (circ_numbers a) -> Forall exact (circ_numbers b) -> circ_eqb a b = true -> a = b.
Proof.
  unfold circ_numbers, circ_eqb. rewrite !Bool.andb_true_iff, !Nat.eqb_eq. intros Ha Hb ((H1 & H2) & H3). apply vecs_exact in H1; auto. destruct a, b; cbn in *; congruence.
Qed.
Lemma neuron_exact e o p a b : wf_neuron e a -> wf_neuron e b -> Forall exact (neuron_numbers a) -> Forall exact (neuron_numbers b) -> neuron_eqb o p a b = true -> a = b.
Proof.
  intros (_ & _ & Wa & _) (_ & _ & Wb & _). unfold neuron_numbers, neuron_eqb. rewrite !Forall_app, !Bool.andb_true_iff, !Nat.eqb_eq, act_eqb_spec.
  intros (Ha1 & Ha2 & Ha3 & Ha4 & Ha5 & Ha6) (Hb1 & Hb2 & Hb3 & Hb4 & Hb5 & Hb6) ((((((((A1 & A2) & A3) & A4) & A5) & A6) & A7) & A8) & A9).
  apply vec_exact in A2, A6; auto. apply circ_exact in A4, A5; auto. inversion Ha2; inversion Hb2; inversion Ha6; inversion Hb6; subst. apply HX in A3, A7; auto.
  assert (n_batch a = n_batch b) by (destruct Wa as (_ & <- & _), Wb as (_ & <- & _); congruence). destruct a, b; cbn in *; congruence.
Qed.
Lemma rneuron_exact k o p a b : wf_rneuron k a -> wf_rneuron k b -> Forall exact (rneuron_numbers a) -> Forall exact (rneuron_numbers b) -> rneuron_eqb o p a b = true -> a = b.
Proof.
  intros (Wa & _) (Wb & _). unfold rneuron_numbers, rneuron_eqb. rewrite !Forall_app, !Forall_cons_iff, !Bool.andb_true_iff. intros (Ha & Ha1 & Ha2 & Ha3 & Ha4 & _) (Hb & Hb1 & Hb2 & Hb3 & Hb4 & _) ((((A1 & A2) & A3) & A4) & A5).
  apply (neuron_exact 2) in A1; auto. apply HX in A2, A3, A4, A5; auto. destruct a, b; cbn in *; congruence.
Qed.
Lemma gneuron_exact k o p a b : wf_gneuron k a -> wf_gneuron k b -> Forall exact (gneuron_numbers a) -> Forall exact (gneuron_numbers b) -> gneuron_eqb o p a b = true -> gru_rel a b.
Proof.
  intros (_ & Wa1 & Wa2 & Wa3) (_ & Wb1 & Wb2 & Wb3). unfold gneuron_numbers, gneuron_eqb. rewrite !Forall_app, !Forall_cons_iff, !Bool.andb_true_iff, !Nat.eqb_eq.
  intros ((Ha1 & Ha2 & Ha3 & Ha4 & _) & Ha5 & Ha6 & Ha7) ((Hb1 & Hb2 & Hb3 & Hb4 & _) & Hb5 & Hb6 & Hb7) (((((((A1 & A2) & A3) & A4) & A5) & A6) & A7) & A8).
  apply (rneuron_exact k) in A6, A7, A8; auto. apply HX in A2, A3, A4, A5; auto. unfold gru_rel, bare_gru. congruence.
Qed.
(* all but the masks of the dropouts *)
Definition strip (o : LOpt) : LOpt := match o with ODropout v r _ => ODropout v r [] | o => o end.
Lemma lopts_exact a : forall b, Forall exact (flat_map lopt_numbers a) -> Forall exact (flat_map lopt_numbers b) -> List.length a = List.length b -> lopts_eqb a b = Ok true -> map strip a = map strip b.
Proof.
  induction a as [|x a IH]; intros [|y b]; cbn [flat_map lopts_eqb map]; auto; try discriminate. rewrite !Forall_app. intros (Hx & Ha) (Hy & Hb) E. injection E as E. destruct (lopt_eqb x y) eqn:Exy; [|discriminate].
  intros H. f_equal; [|auto]. destruct x, y; cbn in *; try discriminate; auto; rewrite ?Forall_cons_iff in *; try (apply HX in Exy; [congruence|tauto..]).
  apply andb_prop in Exy as [E1 E2]. apply HX in E1; [|tauto..]. apply HX in E2; [|tauto..]. congruence.
Qed.
(* the same function of the inputs *)
Inductive sim_body : Body -> Body -> Prop :=
| sb_full ns : sim_body (BFull ns) (BFull ns)
| sb_rec ns : sim_body (BRec ns) (BRec ns)
| sb_gru x y : Forall2 gru_rel x y -> sim_body (BGru x) (BGru y)
| sb_pool k f mi mi' ns : is_pool k = true -> List.length mi = List.length mi' -> sim_body (BFilter k (set_maxIndex f mi) ns) (BFilter k (set_maxIndex f mi') ns)
| sb_filter k f g ns : is_pool k = false -> bare_filter k f = bare_filter k g -> sim_body (BFilter k f ns) (BFilter k g ns).
Definition sim (a b : Layer) : Prop := l_in a = l_in b /\ map strip (l_opts a) = map strip (l_opts b) /\ sim_body (l_body a) (l_body b).
Lemma sim_body_output a b x t : sim_body a b -> orel (with_out sim_body) (body_output a x t) (body_output b x t).
Proof.
  intros H. destruct H as [ns|ns|u v H|k f mi mi' ns PK HM|k f g ns PK E].
  - pose proof (body_output_rel (BFull ns) (BFull ns) x t eq_refl) as HR. cbn [body_output] in *. eapply orel_bind; [apply orel_eq|]. intros ? (o & ns') ->. split; [reflexivity|constructor].
  - cbn [body_output]. eapply orel_bind; [apply orel_eq|]. intros ? (o & ns') ->. split; [reflexivity|constructor].
  - cbn [body_output]. eapply orel_bind; [apply each_rel; [exact H|]; intros i p q Hpq; now apply gru_output_rel|]. intros (o1 & n1) (o2 & n2) (E1 & E2). cbn in E1, E2. subst o2. split; [reflexivity|now constructor].
  - assert (HP : orel (with_out (fun f1 f2 => exists m1 m2, f1 = set_maxIndex f m1 /\ f2 = set_maxIndex f m2 /\ List.length m1 = List.length m2)) (pool_output (set_maxIndex f mi) x) (pool_output (set_maxIndex f mi') x)).
    { unfold pool_output. cbn [f_maxIndex f_index set_maxIndex f_kernels]. rewrite HM. destruct (_ <? _); [exact I|]. change (maxIndexOf (set_maxIndex f mi') x) with (maxIndexOf (set_maxIndex f mi) x).
      eapply orel_bind; [apply orel_eq|]. intros ? best ->. eapply orel_bind; [apply orel_eq|]. intros ? o ->. eapply orel_bind; [apply orel_eq|]. intros ? o' ->. split; [reflexivity|]. cbn.
      eexists _, _. split; [reflexivity|]. split; [reflexivity|]. rewrite !app_length, !skipn_length. congruence. }
    destruct k; try discriminate PK; cbn [body_output]; (eapply orel_bind; [exact HP|]; intros (o1 & f1) (o2 & f2) (E1 & m1 & m2 & E2 & E3 & EL); cbn in E1, E2, E3; subst o2 f1 f2; split; [reflexivity|now constructor]).
  - destruct (filter_fields k f g E) as (A1 & A2 & A3 & A4 & A5 & A6 & A7 & A8 & A9).
    assert (C : conv_output f ns x = conv_output g ns x) by (unfold conv_output, convWindow; now rewrite A2, A6, A9).
    assert (LL : loc_output f ns x = loc_output g ns x) by (unfold loc_output, locWindow; now rewrite A1, A2, A6, A9).
    destruct k; try discriminate PK; cbn [body_output]; rewrite ?C, ?LL; (eapply orel_bind; [apply orel_eq|]; intros ? (o1 & n1) ->; split; [reflexivity|]; cbn; now constructor).
Qed.
Lemma opts_testing_strip a : forall b v, map strip a = map strip b -> opts_testing a v = opts_testing b v.
Proof.
  unfold opts_testing. induction a as [|x a IH]; intros [|y b] v E; try discriminate; [reflexivity|]. cbn [ofold]. pose proof (f_equal (hd OSoftmax) E) as E1. pose proof (f_equal (@tl _) E) as E2. cbn in E1, E2.
  assert (EO : opt_testing x v = opt_testing y v) by (destruct x, y; cbn in *; try discriminate; auto; injection E1; intros; subst; reflexivity). rewrite EO. destruct (opt_testing y v); cbn [bind]; auto.
Qed.
Lemma sim_output a b x t : sim a b -> orel (with_out sim) (layer_output a x t) (layer_output b x t).
Proof.
  intros (E1 & E2 & H). unfold layer_output. eapply orel_bind; [apply sim_body_output; exact H|]. intros (o1 & b1) (o2 & b2) (E3 & E4). cbn in E3, E4. subst o2. rewrite (opts_testing_strip _ (l_opts b) o1 E2).
  eapply orel_bind; [apply orel_eq|]. intros ? ? ->. split; [reflexivity|]. split; [exact E1|]. split; [exact E2|exact E4].
Qed.
Lemma sim_chain t la lb : Forall2 sim la lb -> forall i v, orel (with_out (Forall2 sim)) (chain (fun _ l v => layer_output l v t) i la v) (chain (fun _ l v => layer_output l v t) i lb v).
Proof.
  intros H. induction H as [|a b la lb Hab Hl IH]; intros i v; cbn [chain]; [split; [reflexivity|constructor]|].
  eapply orel_bind; [apply sim_output; exact Hab|]. intros (v1 & a1) (v2 & b1) (E1 & E2). cbn in E1, E2. subst v2.
  eapply orel_bind; [apply IH|]. intros (v2 & t1) (v3 & t2) (E3 & E4). cbn in E3, E4. subst v3. split; [reflexivity|]. now constructor.
Qed.
Lemma sim_net a b x t : Forall2 sim (nn_layers a) (nn_layers b) -> orel (with_out (fun a b => Forall2 sim (nn_layers a) (nn_layers b))) (net_output a x t) (net_output b x t).
Proof.
  intros H. unfold net_output. assert (HC := sim_chain t _ _ H 0 x). destruct H as [|la lb ta tb Hl Ht]; [exact I|]. eapply orel_bind; [exact HC|]. intros (v1 & l1) (v2 & l2) (E4 & E5). cbn in E4, E5. subst v2. now split.
Qed.

(* the descriptions of poolings the interface offers: MaxPooling(k) takes no layer optimizer *)
Definition plain_pooling (d : LDesc) : Prop := d_type d = t_pool -> d_opts d = [].
Lemma vec_map {A} (R : A -> A -> Prop) (e : A -> A -> bool) (num : A -> list F) (w : A -> Prop) a b : (forall x y, w x -> w y -> Forall exact (num x) -> Forall exact (num y) -> e x y = true -> R x y) ->
  Forall w a -> Forall w b -> Forall exact (flat_map num a) -> Forall exact (flat_map num b) -> vec_eqb e a b = true -> Forall2 R a b.
Proof.
  intros H Wa. revert b. induction Wa as [|x a Wx _ IH]; intros [|y b] Wb; cbn; auto; try discriminate. inversion Wb; subst. rewrite !Forall_app, Bool.andb_true_iff. intros [] [] []. constructor; auto.
Qed.
Lemma Forall2_eq {A} (a b : list A) : Forall2 eq a b -> a = b. Proof. induction 1; congruence. Qed.
Lemma works_opts_len l l' : works l l' -> List.length (l_opts l') = List.length (l_opts l).
Proof.
  assert (HT : forall r t os i v o os', opts_training r t i os v = Ok (o, os') -> List.length os' = List.length os).
  { intros r t os. induction os as [|x os IH]; intros i v o os' E; cbn in E; [now injection E as <- <-|]. binds E. injection E as <- <-. cbn. f_equal. eapply IH; eassumption. }
  intros H. induction H; auto; rewrite IHworks.
  - unfold layer_output in H0. binds H0. now injection H0 as _ <-.
  - unfold layer_outputForTraining in H0. binds H0. injection H0 as _ <-. cbn. eapply HT. eassumption.
  - unfold layer_backOutput in H0. cbv zeta in H0. binds H0. now injection H0 as _ <-.
  - unfold layer_train in H0. cbv zeta in H0. binds H0. now injection H0 as <-.
  - unfold layer_backOutput in H1. cbv zeta in H1. binds H1. now injection H1 as _ <-.
Qed.
Lemma pool_layer d s l k f ns : layer_of d s l -> Forall (fun x => 0 < x) s -> sane_kernel d -> supported_pooling l -> plain_pooling d -> l_body l = BFilter k f ns -> is_pool k = true ->
  l_opts l = [] /\ ns = [] /\ match k, f_shapeIn f with
    | Pool1D, [c; x] => l_in l = c * x /\ List.length (f_maxIndex f) = tiles x (f_ksize f) /\ exists mi, f = set_maxIndex (mkFilter c (tiles x (f_ksize f)) 0 0 (f_ksize f) (f_ksize f) [c; x] [c; tiles x (f_ksize f)] (pool1D_index c (f_ksize f) (c * x) (tiles x (f_ksize f))) (tiles x (f_ksize f)) []) mi
    | Pool2D, [c; x; y] => let ks := f_ksize f in l_in l = c * x * y /\ List.length (f_maxIndex f) = c * tiles x ks * tiles y ks /\
        exists mi, f = set_maxIndex (mkFilter c (c * tiles x ks * tiles y ks) 0 0 ks (ks * ks) [c; x; y] [c; tiles x ks; tiles y ks]
              (pool2D_index c x ks (tiles x ks) (tiles y ks) (c * x * y) (c * tiles x ks * tiles y ks)) (c * tiles x ks * tiles y ks) []) mi
    | _, _ => False
    end.
Proof.
  intros HL Hs Hk HP Hd Eb PK. pose proof (pooling_of d s l HL Hs Hk HP) as HP'. destruct (layer_of_wf d s l HL Hs Hk HP') as (dr & ms & l0 & B & W0 & W & SL & SS).
  assert (EO : l_opts l = []).
  { pose proof (works_opts_len _ _ (proj2 (proj2 SL))) as E. destruct SL as (_ & (_ & SK) & _). rewrite Eb in SK.
    assert (D : d_type d = t_pool). { destruct B; cbn [finish l_body] in SK; try contradiction; destruct SK as (-> & _); try discriminate; assumption. }
    assert (E0 : l_opts l0 = []) by (destruct B; cbn [finish l_opts]; rewrite (Hd D); reflexivity). rewrite E0 in E. now destruct (l_opts l). }
  split; [exact EO|]. destruct B as [| | |c x ks T Es Ek K1 K2|c x y ks T Es Ek K1 K2 K3| | | |]; try (destruct SL as (_ & (_ & SK) & _); rewrite Eb in SK; cbn [finish l_body] in SK; try contradiction; destruct SK as (-> & _); discriminate).
  - destruct (pool_state _ _ _ _ _ _ _ _ SL W I) as (mi & Eb' & H1 & H2 & H3 & H4). rewrite Eb in Eb'. injection Eb' as -> -> ->. split; [reflexivity|]. cbn [f_shapeIn f_ksize set_maxIndex f_maxIndex f_kernels] in *.
    split; [destruct SL as (-> & _); reflexivity|]. split; [lia|]. eexists. reflexivity.
  - destruct (pool_state _ _ _ _ _ _ _ _ SL W I) as (mi & Eb' & H1 & H2 & H3 & H4). rewrite Eb in Eb'. injection Eb' as -> -> ->. split; [reflexivity|]. cbn [f_shapeIn f_ksize set_maxIndex f_maxIndex f_kernels] in *. cbv zeta.
    split; [destruct SL as (-> & _); reflexivity|]. split; [lia|]. eexists. reflexivity.
Qed.
Lemma layer_sim d s a d' s' b o p : layer_of d s a -> layer_of d' s' b -> Forall (fun x => 0 < x) s -> Forall (fun x => 0 < x) s' -> sane_kernel d -> sane_kernel d' -> supported_pooling a -> supported_pooling b ->
  plain_pooling d -> plain_pooling d' -> Forall exact (layer_numbers a) -> Forall exact (layer_numbers b) -> List.length (l_opts a) = List.length (l_opts b) -> layer_eqb o p a b = Ok true -> sim a b.
Proof.
  intros La Lb Hs Hs' Hk Hk' Pa Pb Da Db Xa Xb EL E.
  destruct (layer_of_wf d s a La Hs Hk (pooling_of d s a La Hs Hk Pa)) as (_ & _ & a0 & _ & _ & Wa & _ & _). destruct (layer_of_wf d' s' b Lb Hs' Hk' (pooling_of d' s' b Lb Hs' Hk' Pb)) as (_ & _ & b0 & _ & _ & Wb & _ & _).
  unfold layer_numbers in Xa, Xb. rewrite Forall_app in Xa, Xb. destruct Xa as (Xa & Xa'), Xb as (Xb & Xb').
  destruct Wa as (Ia & _ & _ & Wa & _), Wb as (Ib & _ & _ & Wb & _). unfold layer_eqb in E. unfold sim.
  pose proof (pool_layer d s a) as QA. pose proof (pool_layer d' s' b) as QB. cbv zeta in QA, QB.
  destruct (l_body a) as [x|x|x|k f x], (l_body b) as [y|y|y|k' g y]; try discriminate; cbn [wf_body body_numbers] in *.
  - rewrite oand_true, Ok_true, Bool.andb_true_iff, Nat.eqb_eq in E. destruct E as ((E1 & E2) & E3). apply lopts_exact in E3; auto. split; [exact E1|]. split; [exact E3|].
    replace y with x; [constructor|]. apply Forall2_eq. destruct Wa as (_ & Wa), Wb as (_ & Wb). rewrite <- Ia in Wa. rewrite <- Ib, <- E1 in Wb.
    eapply (vec_map eq _ neuron_numbers (wf_plain (l_in a))); [|exact Wa|exact Wb|exact Xa|exact Xb|exact E2]. intros u v (Wu & _) (Wv & _) Xu Xv. now apply (neuron_exact 1).
  - rewrite oand_true, Ok_true, Bool.andb_true_iff, Nat.eqb_eq in E. destruct E as ((E1 & E2) & E3). apply lopts_exact in E3; auto. split; [exact E1|]. split; [exact E3|].
    replace y with x; [constructor|]. apply Forall2_eq. destruct Wa as (_ & Wa), Wb as (_ & Wb). rewrite <- Ia in Wa. rewrite <- Ib, <- E1 in Wb.
    eapply (vec_map eq _ rneuron_numbers (wf_rneuron (l_in a))); [|exact Wa|exact Wb|exact Xa|exact Xb|exact E2]. intros u v Wu Wv Xu Xv. now apply (rneuron_exact (l_in a)).
  - rewrite oand_true, Ok_true, Bool.andb_true_iff, Nat.eqb_eq in E. destruct E as ((E1 & E2) & E3). apply lopts_exact in E3; auto. split; [exact E1|]. split; [exact E3|].
    constructor. destruct Wa as (_ & Wa), Wb as (_ & Wb). rewrite <- Ia in Wa. rewrite <- Ib, <- E1 in Wb.
    eapply (vec_map gru_rel _ gneuron_numbers (wf_gneuron (l_in a))); [|exact Wa|exact Wb|exact Xa|exact Xb|exact E2]. intros u v Wu Wv Xu Xv. now apply (gneuron_exact (l_in a)).
  - destruct (fkind_eqb k k') eqn:K; [|discriminate]. apply fkind_eqb_spec in K. subst k'. cbn [negb] in E.
    destruct (is_pool k) eqn:PK.
    + specialize (QA k f x La Hs Hk Pa Da eq_refl PK). specialize (QB k g y Lb Hs' Hk' Pb Db eq_refl PK). destruct QA as (Oa & -> & QA), QB as (Ob & -> & QB). rewrite Oa, Ob.
      assert (EP : f_ksize f = f_ksize g /\ f_shapeIn f = f_shapeIn g) by (apply pool_eqb_spec; destruct k; try discriminate PK; now injection E). destruct EP as (EP1 & EP2). rewrite <- EP2, <- EP1 in QB.
      destruct k; try discriminate PK; destruct (f_shapeIn f) as [|c [|u [|v [|]]]]; try contradiction; destruct QA as (Q1 & Q2 & m1 & Q3), QB as (Q4 & Q5 & m2 & Q6); split; try congruence; split; try reflexivity;
        rewrite Q3, Q6; (constructor; [reflexivity|]); rewrite Q3 in Q2; rewrite Q6 in Q5; cbn in Q2, Q5; congruence.
    + assert (E' : oand (oand (Ok ((l_in a =? l_in b) && vec_eqb (neuron_eqb o p) x y)) (lopts_eqb (l_opts a) (l_opts b))) (Ok (filter_eqb f g)) = Ok true) by (destruct k; try discriminate PK; exact E).
      rewrite !oand_true, !Ok_true, Bool.andb_true_iff, Nat.eqb_eq, filter_eqb_spec in E'. destruct E' as (((E1 & E2) & E3) & E4). apply lopts_exact in E3; auto. split; [exact E1|]. split; [exact E3|].
      assert (Exy : x = y).
      { apply Forall2_eq. assert (W1 : Forall (wf_plain (f_nin f)) x) by (destruct Wa as (_ & Wa); destruct k; try discriminate PK; cbn in Wa; tauto).
        assert (W2 : Forall (wf_plain (f_nin f)) y) by (replace (f_nin f) with (f_nin g) by (symmetry; tauto); destruct Wb as (_ & Wb); destruct k; try discriminate PK; cbn in Wb; tauto).
        eapply (vec_map eq _ neuron_numbers (wf_plain (f_nin f))); [|exact W1|exact W2|exact Xa|exact Xb|exact E2]. intros u v (Wu & _) (Wv & _) Xu Xv. now apply (neuron_exact 1). }
      subst y. apply sb_filter; [exact PK|]. destruct E4 as (? & ? & ? & ? & ? & ? & ? & ? & ?). destruct k; try discriminate PK; unfold bare_filter; congruence.
Qed.
Lemma layers_sim o p : forall ds s la ds' s' lb, layers_of ds s la -> layers_of ds' s' lb -> Forall (fun x => 0 < x) s -> Forall (fun x => 0 < x) s' -> Forall sane_kernel ds -> Forall sane_kernel ds' ->
  Forall supported_pooling la -> Forall supported_pooling lb -> Forall plain_pooling ds -> Forall plain_pooling ds' -> Forall exact (flat_map layer_numbers la) -> Forall exact (flat_map layer_numbers lb) ->
  same_opt_counts la lb -> layers_eqb o p la lb = Ok true -> Forall2 sim la lb.
Proof.
  intros ds s la ds' s' lb La Lb Hs Hs' Hk Hk' Pa Pb Da Db Xa Xb C E. revert ds s ds' s' La Lb Hs Hs' Hk Hk' Pa Pb Da Db Xa Xb E.
  induction C as [|a b la lb Hab C IH]; intros; [constructor|]. destruct ds as [|d ds]; [contradiction|]. destruct ds' as [|d' ds']; [contradiction|]. cbn [layers_of] in La, Lb. destruct La as (La & La'), Lb as (Lb & Lb').
  inversion Hk; subst. inversion Hk'; subst. inversion Pa; subst. inversion Pb; subst. inversion Da; subst. inversion Db; subst. cbn [flat_map] in Xa, Xb. rewrite Forall_app in Xa, Xb. destruct Xa as (Xa & Xa'), Xb as (Xb & Xb').
  cbn [layers_eqb] in E. rewrite oand_true in E. destruct E as (E & E'). constructor; [now apply (layer_sim d s a d' s' b o p)|].
  assert (PS : forall d s l, layer_of d s l -> Forall (fun x => 0 < x) s -> sane_kernel d -> supported_pooling l -> Forall (fun x => 0 < x) (getShapeOfOutput l)).
  { intros e t l Hl Ht He Hp. destruct (layer_of_wf e t l Hl Ht He (pooling_of e t l Hl Ht He Hp)) as (dr & ms & l0 & _ & _ & W & SL & _). destruct (same_layer_shape _ _ SL) as [-> _]. apply cell_count_pos. apply W. }
  apply (IH ds (getShapeOfOutput a) ds' (getShapeOfOutput b)); auto; eapply PS; eassumption.
Qed.
End P.
