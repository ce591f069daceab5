(* C80: what convolutions and poolings compute at a place depends on the pattern there, not on the place. *)
From Coq Require Import SpecFloat.
From Verif Require Import Base Num Witness ActModel NeuronModel LayerModel NetModel NeuronProofs LayerProofs SafeProofs SafeLayers FactoryModel FactorySpec FactoryProofs
  FactoryProps FilterSpec SafeNet BuildProofs FilterProofs HistProofs FilterProps PoolProofs PureProps FieldSpec FieldProofs.
Local Open Scope nat_scope.

Section C80.
Context {N : Num}.
(* the layers of a network built from descriptions for an array of shape s, after any life, and what it answers *)
Lemma inside draws masks s rest lr m net net' : construct draws masks (Input (map Z.of_nat s) :: rest) lr m = Ok net -> Forall (fun n => 0 < n) s ->
  Forall sane_kernel rest -> Forall supported_pooling (nn_layers net) -> uses (cell_count s) net net' ->
  layers_of rest s (nn_layers net') /\ exists mm, wf_net (cell_count s) mm net'.
Proof.
  intros HC Hpos Hk HP U. split; [exact (network_layers _ _ _ _ _ _ _ _ HC Hpos Hk HP U)|].
  assert (Hsane : sane_descriptions (Input (map Z.of_nat s) :: rest)). { split; [|exact Hk]. cbn [d_shape Input]. clear -Hpos. induction Hpos; cbn; constructor; auto; lia. }
  destruct (construct_wf _ _ _ _ _ _ HC Hsane HP) as (k & mm & W & Hp). assert (Ek : k = cell_count s).
  { cbn [hd d_shape Input] in Hp. unfold product in Hp. apply product_inv in Hp. change 1%Z with (Z.of_nat 1) in Hp. rewrite fold_mul_nat in Hp. apply Nat2Z.inj in Hp. exact Hp. }
  subst k. exists mm. exact (proj1 (uses_wf _ _ _ _ W U)).
Qed.
Lemma inside_outputs s mm net' ds more v : layers_of (ds ++ more) s (nn_layers net') -> wf_net (cell_count s) mm net' -> ds <> [] -> List.length v = cell_count s ->
  exists os n1 ls1 o ls2, getLayerOutputs net' v = Ok (os, n1) /\ nth_error os (List.length ds - 1) = Some o /\ layers_of ds s ls1 /\ firstn (List.length ds) (nn_layers net') = ls1 /\
    chain (fun _ l v => layer_output l v true) 0 ls1 v = Ok (o, ls2).
Proof.
  intros HL W Hne Hv. destruct (getLayerOutputs_wf _ _ _ v W Hv) as (os & n1 & E & _). destruct (layers_of_split _ _ _ _ HL) as (l1 & l2 & El & H1 & H2).
  pose proof E as E0. unfold getLayerOutputs in E. destruct (nn_layers net') as [|l0 ls0] eqn:En; [discriminate|]. apply bind_Ok_inv in E as ([r ls'] & E & G). injection G as -> _.
  rewrite El in E. destruct (chain_outputs_prefix l1 l2 v os ls' 0) as (o & l1' & C & G); [intros ->; destruct ds; [congruence|discriminate]|exact E|].
  exists os, n1, l1, o, l1'. split; [exact E0|]. split; [rewrite <- H2; exact G|]. split; [exact H1|]. split; [|exact C]. rewrite El, <- H2, firstn_app, firstn_all, Nat.sub_diag. cbn. apply app_nil_r.
Qed.

(* Every value convolutions and poolings compute is a function of its receptive field only, and the same function at every position:
   in any network that begins with them, whatever its weights became, when the cells of one image around a position hold what the
   cells of another (or the same) image around another position hold, the values at these positions are equal, bit for bit. *)
Theorem C80_receptive_field2D : forall draws masks C X Y ds more lr m net net' f oX oY r t,
  construct draws masks (Input (map Z.of_nat [C; X; Y]) :: ds ++ more) lr m = Ok net -> 0 < C -> 0 < X -> 0 < Y ->
  Forall sane_kernel (ds ++ more) -> Forall supported_pooling (nn_layers net) -> ds <> [] -> stack2 ds C X Y f oX oY r t -> uses (C * X * Y) net net' ->
  forall v v', List.length v = C * X * Y -> List.length v' = C * X * Y ->
  exists os os' n1 n2 o o', getLayerOutputs net' v = Ok (os, n1) /\ getLayerOutputs net' v' = Ok (os', n2) /\
  nth_error os (List.length ds - 1) = Some o /\ nth_error os' (List.length ds - 1) = Some o' /\ List.length o = f * oX * oY /\ List.length o' = f * oX * oY /\
  forall px py qx qy, t * px + r <= X -> t * py + r <= Y -> t * qx + r <= X -> t * qy + r <= Y ->
    same_patch2 C X r v (t * px) (t * py) v' (t * qx) (t * qy) -> px < oX /\ py < oY /\ qx < oX /\ qy < oY /\
    forall n, n < f -> nth (cell2 f oX px py n) o fzero = nth (cell2 f oX qx qy n) o' fzero.
Proof.
  intros draws masks C X Y ds more lr m net net' f oX oY r t HC Hc HX HY Hk HP Hne HS U v v' Hv Hv'. rewrite <- (cells3 C X Y) in U, Hv, Hv'.
  assert (Hpos : Forall (fun n => 0 < n) [C; X; Y]) by (repeat constructor; auto).
  destruct (inside _ _ _ _ _ _ _ _ HC Hpos Hk HP U) as (HL & mm & W).
  destruct (inside_outputs _ _ _ _ _ v HL W Hne Hv) as (os & n1 & l1 & o & c1 & E1 & G1 & L1 & F1 & K1). destruct (inside_outputs _ _ _ _ _ v' HL W Hne Hv') as (os' & n2 & l1' & o' & c2 & E2 & G2 & _ & F2 & K2).
  rewrite F1 in F2. subst l1'. exists os, os', n1, n2, o, o'. do 4 (split; [assumption|]). rewrite (cells3 C X Y) in Hv, Hv'.
  exact (stack2_chain _ _ _ _ _ _ _ _ _ HS Hc HX HY (proj1 (proj1 (Forall_app _ _ _) Hk)) _ _ _ _ _ _ _ _ _ _ L1 Hv Hv' K1 K2).
Qed.
Theorem C80_receptive_field1D : forall draws masks s C X ds more lr m net net' f oX r t, s = [C; X] \/ s = [X] /\ C = 1 ->
  construct draws masks (Input (map Z.of_nat s) :: ds ++ more) lr m = Ok net -> 0 < C -> 0 < X ->
  Forall sane_kernel (ds ++ more) -> Forall supported_pooling (nn_layers net) -> ds <> [] -> stack1 ds C X f oX r t -> uses (C * X) net net' ->
  forall v v', List.length v = C * X -> List.length v' = C * X ->
  exists os os' n1 n2 o o', getLayerOutputs net' v = Ok (os, n1) /\ getLayerOutputs net' v' = Ok (os', n2) /\
  nth_error os (List.length ds - 1) = Some o /\ nth_error os' (List.length ds - 1) = Some o' /\ List.length o = f * oX /\ List.length o' = f * oX /\
  forall p q, t * p + r <= X -> t * q + r <= X -> same_patch1 C r v (t * p) v' (t * q) -> p < oX /\ q < oX /\
    forall n, n < f -> nth (cell1 f p n) o fzero = nth (cell1 f q n) o' fzero.
Proof.
  intros draws masks s C X ds more lr m net net' f oX r t Hs HC Hc HX Hk HP Hne HS U v v' Hv Hv'. destruct (shape1 s C X Hs Hc HX) as [Hpos Ec]. rewrite <- Ec in U, Hv, Hv'.
  destruct (inside _ _ _ _ _ _ _ _ HC Hpos Hk HP U) as (HL & mm & W).
  destruct (inside_outputs _ _ _ _ _ v HL W Hne Hv) as (os & n1 & l1 & o & c1 & E1 & G1 & L1 & F1 & K1). destruct (inside_outputs _ _ _ _ _ v' HL W Hne Hv') as (os' & n2 & l1' & o' & c2 & E2 & G2 & _ & F2 & K2).
  rewrite F1 in F2. subst l1'. exists os, os', n1, n2, o, o'. do 4 (split; [assumption|]). rewrite Ec in Hv, Hv'.
  exact (stack1_chain _ _ _ _ _ _ _ HS Hc HX (proj1 (proj1 (Forall_app _ _ _) Hk)) _ _ _ _ _ _ _ _ _ _ _ Hs L1 Hv Hv' K1 K2).
Qed.
(* The same of the answers of a network made of these layers only. *)
Theorem C80_output2D : forall draws masks C X Y ds lr m net net' f oX oY r t,
  construct draws masks (Input (map Z.of_nat [C; X; Y]) :: ds) lr m = Ok net -> 0 < C -> 0 < X -> 0 < Y ->
  Forall sane_kernel ds -> Forall supported_pooling (nn_layers net) -> stack2 ds C X Y f oX oY r t -> uses (C * X * Y) net net' ->
  forall v v' a b, List.length v = C * X * Y -> List.length v' = C * X * Y ->
  exists o o' n1 n2, net_output net' v a = Ok (o, n1) /\ net_output net' v' b = Ok (o', n2) /\ List.length o = f * oX * oY /\ List.length o' = f * oX * oY /\
  forall px py qx qy, t * px + r <= X -> t * py + r <= Y -> t * qx + r <= X -> t * qy + r <= Y ->
    same_patch2 C X r v (t * px) (t * py) v' (t * qx) (t * qy) -> px < oX /\ py < oY /\ qx < oX /\ qy < oY /\
    forall n, n < f -> nth (cell2 f oX px py n) o fzero = nth (cell2 f oX qx qy n) o' fzero.
Proof.
  intros draws masks C X Y rest lr m net net' f oX oY r t HC Hc HX HY Hk HP HS U v v' a b Hv Hv'. pose proof (cells3 C X Y) as Ec. rewrite <- Ec in U.
  assert (Hpos : Forall (fun n => 0 < n) [C; X; Y]) by (repeat constructor; auto).
  destruct (inside _ _ _ _ _ _ _ _ HC Hpos Hk HP U) as (HL & mm & W'). rewrite Ec in W'.
  destruct (net_output_wf _ _ _ v a W' Hv) as (o & n1 & E1 & _). destruct (net_output_wf _ _ _ v' b W' Hv') as (o' & n2 & E2 & _).
  exists o, o', n1, n2. split; [exact E1|]. split; [exact E2|]. unfold net_output in E1, E2. destruct (nn_layers net') as [|l0 ls0] eqn:El; [discriminate|]. rewrite <- El in *.
  apply bind_Ok_inv in E1 as ([? ?] & E1 & G). injection G as <- _. apply bind_Ok_inv in E2 as ([? ?] & E2 & G). injection G as <- _.
  exact (stack2_chain _ _ _ _ _ _ _ _ _ HS Hc HX HY Hk _ _ _ _ _ _ _ _ _ _ HL Hv Hv' E1 E2).
Qed.

(* When an image is moved by t * sx and t * sy cells, the values are moved by sx and sy positions, wherever the receptive field lies
   inside both images. *)
Theorem C80_moved2D : forall draws masks C X Y ds more lr m net net' f oX oY r t,
  construct draws masks (Input (map Z.of_nat [C; X; Y]) :: ds ++ more) lr m = Ok net -> 0 < C -> 0 < X -> 0 < Y ->
  Forall sane_kernel (ds ++ more) -> Forall supported_pooling (nn_layers net) -> ds <> [] -> stack2 ds C X Y f oX oY r t -> uses (C * X * Y) net net' ->
  forall sx sy v v', List.length v = C * X * Y -> List.length v' = C * X * Y ->
  (forall x y c, x + t * sx < X -> y + t * sy < Y -> c < C -> nth (cell2 C X (x + t * sx) (y + t * sy) c) v' fzero = nth (cell2 C X x y c) v fzero) ->
  exists os os' n1 n2 o o', getLayerOutputs net' v = Ok (os, n1) /\ getLayerOutputs net' v' = Ok (os', n2) /\
  nth_error os (List.length ds - 1) = Some o /\ nth_error os' (List.length ds - 1) = Some o' /\
  forall px py n, t * (px + sx) + r <= X -> t * (py + sy) + r <= Y -> n < f ->
    nth (cell2 f oX (px + sx) (py + sy) n) o' fzero = nth (cell2 f oX px py n) o fzero.
Proof.
  intros draws masks C X Y ds more lr m net net' f oX oY r t HC Hc HX HY Hk HP Hne HS U sx sy v v' Hv Hv' HM.
  destruct (C80_receptive_field2D _ _ _ _ _ _ _ _ _ _ _ _ _ _ _ _ HC Hc HX HY Hk HP Hne HS U v v' Hv Hv') as (os & os' & n1 & n2 & o & o' & E1 & E2 & G1 & G2 & _ & _ & HR).
  exists os, os', n1, n2, o, o'. do 4 (split; [assumption|]). intros px py n Hpx Hpy Hn. symmetry.
  apply (HR px py (px + sx) (py + sy)); [nia|nia|exact Hpx|exact Hpy| |exact Hn].
  intros dx dy c Hx Hy Hc'. specialize (HM (t * px + dx) (t * py + dy) c ltac:(nia) ltac:(nia) Hc'). rewrite <- HM. f_equal. unfold cell2. rewrite !Nat.mul_add_distr_l. ring.
Qed.
End C80.
Print Assumptions C80_receptive_field2D.
Print Assumptions C80_receptive_field1D.
Print Assumptions C80_output2D.
Print Assumptions C80_moved2D.

(* two convolutions with a pooling between them, then a dense layer, trained once: the weights of the convolutions changed *)
Definition draws_f : nat -> nat -> nat -> nat -> @F N32 := fun l n _ i => b32q (Z.of_nat (1 + l + n + i)) 64.
Definition demo_stack : list (@LDesc N32) := [@Convolution N32 2 2 a_identity []; @MaxPooling N32 2; @Convolution N32 3 2 a_sigmoid [@d_dropout N32 (b32q 1 2)]].
Lemma demo_stack2 : @stack2 N32 demo_stack 1 7 7 3 2 2 5 2.
Proof.
  unfold demo_stack. change (@stack2 N32 [@Convolution N32 2 2 a_identity []; @MaxPooling N32 2; @Convolution N32 3 2 a_sigmoid [@d_dropout N32 (b32q 1 2)]] 1 7 7 3 2 2 (2 * (1 + (2 - 1)) + (2 - 1)) (2 * 1)).
  eapply (@stack2_conv N32 _ _ 1 7 7 2 2); try reflexivity; [intros []|]. apply (@stack2_pool N32 _ _ 2 _ _ 2); try reflexivity; [intros []|].
  eapply (@stack2_conv N32 _ _ 2 _ _ 3 2); try reflexivity; [intros [H|[]]; discriminate|]. apply stack2_none.
Qed.
Definition demo_more : list (@LDesc N32) := [@FullyConnected N32 2 a_sigmoid []].
Definition x49 : list (@F N32) := map (fun i => b32q (Z.of_nat (i mod 10)) 16) (seq 0 49).
Example C80_hypotheses : exists net net', @construct N32 draws_f nomasks (@Input N32 (map Z.of_nat [1; 7; 7]) :: demo_stack ++ demo_more) (b32q 1 4) (b32q 1 2) = Ok net /\
  Forall (@sane_kernel N32) (demo_stack ++ demo_more) /\ Forall (@supported_pooling N32) (nn_layers net) /\ @uses N32 (1 * 7 * 7) net net' /\
  forallb (fun p => negb (sfl_eqb (fst p) (snd p))) (combine (layer_weights (nth 0 (nn_layers net) (mkLayer 0 (BFull []) []))) (layer_weights (nth 0 (nn_layers net') (mkLayer 0 (BFull []) [])))) = true.
Proof.
  by_compute (run_check (@construct N32 draws_f nomasks (@Input N32 (map Z.of_nat [1; 7; 7]) :: demo_stack ++ demo_more) (b32q 1 4) (b32q 1 2)) (fun net0 => forallb pool_okb (nn_layers net0)
    && nat_is (net_numberOfOutputs net0) 2 && match nn_layers net0 with a :: b :: t => getNumberOfNeurons (last (b :: t) a) =? cell_count (getShapeOfOutput (last (b :: t) a)) | _ => false end
    && run_check (@trainOnce N32 (fun _ _ _ => true) net0 x49 [b32 1; b32 0] true) (fun net =>
      forallb (fun p => negb (sfl_eqb (fst p) (snd p))) (combine (layer_weights (nth 0 (nn_layers net0) (mkLayer 0 (BFull []) []))) (layer_weights (nth 0 (nn_layers net) (mkLayer 0 (BFull []) []))))))).
  exists w, w0. split; [exact E|]. split; [repeat constructor; cbn; lia|]. split; [now apply pool_okb_ok|]. split; [|assumption].
  eapply uses_train; [| | |exact E0|apply uses_none]; [reflexivity|now apply nat_is_ok|].
  unfold trainable. destruct (nn_layers w) as [|a [|b t]]; auto. left. now apply Nat.eqb_eq.
Qed.
(* and an image that holds the same 5 x 5 pattern at (0, 0) as another at (2, 2) *)
Definition x49' : list (@F N32) := map (fun i => if (2 <=? i mod 7) && (2 <=? i / 7) then nth (i - 16) x49 (b32 0) else b32 (Z.of_nat i)) (seq 0 49).
Example C80_patch : @same_patch2 N32 1 7 5 x49 (2 * 0) (2 * 0) x49' (2 * 1) (2 * 1) /\ x49 <> x49'.
Proof.
  split.
  - intros dx dy c Hx Hy Hc. assert (c = 0) by lia. subst c. do 5 (destruct dx as [|dx]; [do 5 (destruct dy as [|dy]; [vm_compute; reflexivity|]); lia|]). lia.
  - intros H. apply (f_equal (fun l => sf_eqb (nth 1 l (b32 7)) (b32 1))) in H. vm_compute in H. discriminate.
Qed.

(* Locally connected layers have weights of their own at every position: the same pattern at two tiles gives two values. *)
Definition demo_local : list (@LDesc N32) := [@LocallyConnected N32 1 2 a_identity []].
Theorem C80_locally_connected_refuted : exists net os n1 o, @construct N32 draws_f nomasks (@Input N32 (map Z.of_nat [1; 4]) :: demo_local) (b32q 1 100) (b32q 9 10) = Ok net /\
  let v := [b32 1; b32 2; b32 1; b32 2] in @getLayerOutputs N32 net v = Ok (os, n1) /\ nth_error os 0 = Some o /\
  @same_patch1 N32 1 2 v 0 v 2 /\ nth 0 o (b32 0) <> nth 1 o (b32 0).
Proof.
  by_compute (run_check (@construct N32 draws_f nomasks (@Input N32 (map Z.of_nat [1; 4]) :: demo_local) (b32q 1 100) (b32q 9 10)) (fun net =>
    run_check (@getLayerOutputs N32 net [b32 1; b32 2; b32 1; b32 2]) (fun p => match fst p with [o] => negb (sf_eqb (nth 0 o (b32 0)) (nth 1 o (b32 0))) | _ => false end))).
  destruct w0 as [os n1]. cbn [fst] in *. destruct os as [|o [|]]; try discriminate. exists w, [o], n1, o. split; [exact E|]. cbv zeta. split; [exact E0|]. split; [reflexivity|]. split.
  - intros dx c Hx Hc. assert (c = 0) by lia. subst c. do 2 (destruct dx as [|dx]; [vm_compute; reflexivity|]). lia.
  - intros Heq. rewrite Heq in *. match goal with H : negb _ = true |- _ => apply Bool.negb_true_iff in H; rewrite (proj2 (sf_eqb_eq _ _) eq_refl) in H; discriminate end.
Qed.
Print Assumptions C80_locally_connected_refuted.
