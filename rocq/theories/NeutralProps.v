(* C83: options of layers that have no effect. *)
From Coq Require Import Reals Lia Lra.
From Verif Require Import Base Num ActModel NeuronModel LayerModel NetModel FactoryModel LookSpec FactoryProps NeutralSpec NeutralProofs NeutralFloat.
Local Open Scope outcome_scope.

(* ErrorMultiplier(1) and Dropout(0) put anywhere among the options of any layers, as many times as wanted: the network is accepted or
   refused as without them and has the same life, whatever it is trained on *)
Theorem C83_options_of_one : forall (N : Num), (forall x : F, fmul x fone = x) ->
  forall draws masks masks' d0 ds (ms : addition) lr m, places ms ds -> (forall i, Forall one_option (snd (ms i))) -> same_draws (counts ms) masks masks' ->
  same_lives (construct draws masks (d0 :: ds) lr m) (construct draws masks' (d0 :: with_more ms 0 ds) lr m) (counts ms).
Proof. intros N one draws masks masks' d0 ds ms lr m Hp Ho Hd. apply construct_lives; auto. intros i n. now apply build_one. Qed.
Print Assumptions C83_options_of_one.
(* in the arithmetic of binary32, whatever exp and tanh *)
Theorem C83_binary32 : forall expf tanhf draws masks masks' d0 ds (ms : @addition (NumB expf tanhf)) lr m, places ms ds ->
  (forall i o, In o (snd (ms i)) -> o = d_mult fone \/ o = d_dropout fzero) -> same_draws (counts ms) masks masks' ->
  same_lives (construct draws masks (d0 :: ds) lr m) (construct draws masks' (d0 :: with_more ms 0 ds) lr m) (counts ms).
Proof.
  intros ex th draws masks masks' d0 ds ms lr m Hp Ho Hd. apply C83_options_of_one; auto; [apply mult_one|].
  intros i. apply Forall_forall. intros o Hi. destruct (Ho i o Hi) as [->| ->]; [reflexivity|apply minus_zero].
Qed.
Print Assumptions C83_binary32.
Lemma real_idle n (ex : list (@odesc RNum)) : (forall o, In o ex -> o = @d_mult RNum 1%R \/ o = @d_dropout RNum 0%R \/ o = @d_l1 RNum 0%R \/ o = @d_l2 RNum 0%R) -> Forall idle (@build_opts RNum (fun _ _ => true) n ex).
Proof.
  intros Ho. assert (O1 : @fone RNum = 1%R) by (unfold fone, fofZ; cbn [flit RNum]; lra). assert (O0 : @fzero RNum = 0%R) by (unfold fzero, fofZ; cbn [flit RNum]; lra).
  apply build_zero.
  - intros x. rewrite O1. cbn [fmul RNum]. apply Rmult_1_r.
  - intros x y. rewrite O0. cbn [fadd fmul RNum]. rewrite Rmult_0_r. apply Rplus_0_r.
  - apply Forall_forall. intros o Hi. destruct (Ho o Hi) as [->|[->|[->| ->]]]; cbn [one_option zero_option]; rewrite ?O1, ?O0; [left|left|right|right]; auto. cbn [fsub RNum]. lra.
Qed.
(* with the arithmetic of the reals L1Regularization(0) and L2Regularization(0) too *)
Theorem C83_options_of_zero_partial : forall draws masks masks' d0 ds (ms : @addition RNum) (lr m : R), places ms ds ->
  (forall i o, In o (snd (ms i)) -> o = @d_mult RNum 1%R \/ o = @d_dropout RNum 0%R \/ o = @d_l1 RNum 0%R \/ o = @d_l2 RNum 0%R) -> same_draws (counts ms) masks masks' ->
  same_lives (@construct RNum draws masks (d0 :: ds) lr m) (construct draws masks' (d0 :: with_more ms 0 ds) lr m) (counts ms).
Proof. intros draws masks masks' d0 ds ms lr m Hp Ho Hd. apply construct_lives; auto. intros i n. apply real_idle. intros o. apply Ho. Qed.
Print Assumptions C83_options_of_zero_partial.

(* a network with a dropout of its own, to which seven options are added around it *)
Definition neutral_specs : list (Z * activation * list (@odesc RNum)) := [(5%Z, a_sigmoid, []); (4%Z, a_tanh, [@d_dropout RNum (1 / 2)%R; @d_l2 RNum (1 / 100)%R]); (2%Z, a_identity, [])].
Definition neutral_more : @addition RNum := fun i => match i with 0 => (0, [@d_mult RNum 1%R; @d_dropout RNum 0%R]) | 1 => (1, [@d_l1 RNum 0%R; @d_dropout RNum 0%R; @d_mult RNum 1%R]) | 2 => (0, [@d_l2 RNum 0%R; @d_mult RNum 1%R]) | _ => (0, []) end.
Definition own_draws : nat -> nat -> nat -> bool := fun l o i => match l, o with 1, 0 => Nat.even i | _, _ => true end.
Example C83_hypotheses : exists net, @construct RNum (fun _ _ _ _ => (1 / 10)%R) own_draws (@Input RNum [3; 7]%Z :: map (fun p => @FullyConnected RNum (fst (fst p)) (snd (fst p)) (snd p)) neutral_specs) (1 / 100)%R (9 / 10)%R = Ok net /\
  places neutral_more (map (fun p => @FullyConnected RNum (fst (fst p)) (snd (fst p)) (snd p)) neutral_specs) /\
  (forall i o, In o (snd (neutral_more i)) -> o = @d_mult RNum 1%R \/ o = @d_dropout RNum 0%R \/ o = @d_l1 RNum 0%R \/ o = @d_l2 RNum 0%R) /\
  same_draws (counts neutral_more) own_draws own_draws /\
  Forall2 (same_call (counts neutral_more)) [@Training RNum own_draws [1%R] [0%R] false; @Prediction RNum [2%R] true] [@Training RNum own_draws [1%R] [0%R] false; @Prediction RNum [2%R] true].
Proof.
  assert (D : same_draws (counts neutral_more) own_draws own_draws).
  { intros l o i. destruct l as [|[|[|l]]]; cbn [counts neutral_more fst snd List.length own_draws].
    - repeat split; auto.
    - repeat split; intros H; destruct o as [|o]; try lia; reflexivity.
    - repeat split; auto.
    - repeat split; auto. }
  destruct (C26_dense_accepted (fun _ _ _ _ => (1 / 10)%R) own_draws [3; 7]%Z neutral_specs (1 / 100)%R (9 / 10)%R) as (net & E); [discriminate|repeat constructor; cbn; lia|cbn; lia|discriminate|cbn; lia| |intros; lra|lra|lra|].
  { repeat constructor; cbn; lia. }
  exists net. split; [exact E|]. split; [|split; [|split; [exact D|]]].
  - intros i d H. destruct i as [|[|[|i]]]; cbn in H; try (injection H as <-); cbn; lia.
  - intros i o H. destruct i as [|[|[|i]]]; cbn in H; intuition (subst; auto).
  - repeat constructor; auto; apply D.
Qed.
