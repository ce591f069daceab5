(* C24 and C32 for one neuron used at b positions (CircularData): any number of rounds, each made of b outputs and b steps.
   Everything here holds for every arithmetic (in particular binary32): the equations are the exact sequence of operations. *)
From Coq Require Import Reals Lra.
From Verif Require Import Base Num NumOrder Witness ActModel NeuronModel NeuronProofs.
Local Open Scope nat_scope.

Section R.
Context {N : Num}.
Local Open Scope outcome_scope.

(* a round as the layers run it: outputs for the inputs xs, one after the other ... *)
Fixpoint feed (n : Neuron) (xs : list (list F)) : outcome Neuron :=
  match xs with [] => Ok n | x :: t => let* (_, n) := simple_output n x in feed n t end.
(* ... then k gradient steps; a step either returns errors to the previous layer (backOutput) or not (train) *)
Definition step (o : SGD) (n : Neuron) (e : bool * F) : outcome Neuron :=
  if fst e then simple_train o n (snd e) else let* (_, n) := simple_backOutput o n (snd e) in Ok n.
Fixpoint steps (o : SGD) (n : Neuron) (e : nat -> bool * F) (k : nat) : outcome Neuron :=
  match k with O => Ok n | S k => let* n := steps o n e k in step o n (e k) end.
(* rounds: [start r] is the neuron before round r, [state r k] the neuron of round r after its outputs and k steps *)
Section rounds.
Variable (o : SGD) (b : nat) (n : Neuron) (X : nat -> list (list F)) (E : nat -> nat -> bool * F).
Fixpoint start (r : nat) : outcome Neuron :=
  match r with
  | O => Ok n
  | S r => let* n := start r in let* n := feed n (X r) in steps o n (E r) b
  end.
Definition state (r k : nat) : outcome Neuron := let* n := start r in let* n := feed n (X r) in steps o n (E r) k.
End rounds.

(* ---------- proofs ---------- *)
Definition atk (b p k : nat) : Prop := p = k \/ (k = 0 /\ p = b).
Lemma atk_idx b p k : k < b -> atk b p k -> (if b <=? p then 0 else p) = k.
Proof. intros Hk [->|[-> ->]]; [destruct (Nat.leb_spec b k); lia|]. now rewrite Nat.leb_refl. Qed.
Lemma getBack_at c b k : List.length (q_data c) = b -> k < b -> atk b (q_get c) k ->
  getBack c = Ok (nth k (q_data c) [], mkCirc (q_data c) (q_push c) (S k)).
Proof.
  intros Hl Hk Ha. unfold getBack. rewrite Hl, (atk_idx b _ k Hk Ha). rewrite (lget_nth _ k []) by lia. reflexivity.
Qed.
Lemma pushBack_at c b k v : List.length (q_data c) = b -> k < b -> atk b (q_push c) k ->
  pushBack c v = Ok (mkCirc (replace (q_data c) k v) (S k) (q_get c)).
Proof.
  intros Hl Hk Ha. unfold pushBack. rewrite Hl, (atk_idx b _ k Hk Ha). unfold lset. rewrite Hl. destruct (Nat.ltb_spec k b); [reflexivity|lia].
Qed.

(* constant parts *)
Definition same (n n' : Neuron) : Prop := n_in n' = n_in n /\ n_batch n' = n_batch n /\ n_bias n' = n_bias n /\ n_act n' = n_act n.
Definition aligned (n : Neuron) : Prop :=
  wf_neuron 1 n /\ atk (n_batch n) (q_push (n_last n)) 0 /\ atk (n_batch n) (q_get (n_last n)) 0 /\
  atk (n_batch n) (q_push (n_prev n)) 0 /\ atk (n_batch n) (q_get (n_prev n)) 0.

Lemma feed_from xs : forall n j, wf_neuron 1 n -> atk (n_batch n) (q_push (n_last n)) j -> j + List.length xs <= n_batch n ->
  Forall (fun x => List.length x = n_in n) xs ->
  exists n', feed n xs = Ok n' /\ same n n' /\ wf_neuron 1 n' /\ n_w n' = n_w n /\ n_prev n' = n_prev n /\ q_get (n_last n') = q_get (n_last n) /\
    (xs <> [] -> q_push (n_last n') = j + List.length xs) /\ (xs = [] -> n' = n) /\
    (forall i, nth i (q_data (n_last n')) [] = if (j <=? i) && (i <? j + List.length xs) then nth (i - j) xs [] else nth i (q_data (n_last n)) []) /\
    (xs <> [] -> n_sum n' = neuron_sum n (last xs [])).
Proof.
  induction xs as [|x t IH]; intros n j W Ha Hj Hx.
  - exists n. cbn [feed]. split; [reflexivity|]. split; [repeat split|]. split; [exact W|]. do 3 (split; [reflexivity|]).
    split; [congruence|]. split; [reflexivity|]. split; [|congruence]. intros i. cbn [List.length].
    destruct (Nat.leb_spec j i), (Nat.ltb_spec i (j + 0)); cbn; auto; lia.
  - inversion Hx as [|? ? Hx0 Hxt]; subst. cbn [List.length] in Hj. destruct (simple_output_ok n x W Hx0) as (n1 & E & W1).
    cbn [feed]. rewrite E. cbn [bind]. pose proof (simple_output_inv _ _ _ _ E) as (_ & last & Hp & En).
    pose proof W as (_ & _ & (Hb & Hl & _) & _).
    rewrite (pushBack_at _ (n_batch n) j x Hl) in Hp by (auto; lia). injection Hp as Hlast.
    assert (B1 : n_batch n1 = n_batch n /\ n_in n1 = n_in n /\ n_w n1 = n_w n /\ n_prev n1 = n_prev n /\ n_bias n1 = n_bias n /\ n_act n1 = n_act n /\ n_last n1 = last) by (rewrite En; cbn; auto 10).
    destruct B1 as (B1 & B2 & B3 & B4 & B5 & B6 & B7).
    destruct (IH n1 (S j) W1) as (n' & E' & (S1 & S2 & S3 & S4) & W' & Hw & Hpr & Hg & Hpu & Hnil & Hd & Hs).
    { rewrite B7, <- Hlast. cbn. left; reflexivity. } { rewrite B1. lia. } { rewrite B2. exact Hxt. }
    exists n'. split; [exact E'|]. split; [repeat split; congruence|]. split; [exact W'|]. split; [congruence|]. split; [congruence|].
    split. { rewrite Hg, B7, <- Hlast. reflexivity. }
    split. { intros _. destruct t as [|x2 t]. - rewrite (Hnil eq_refl), B7, <- Hlast. cbn. lia. - rewrite Hpu by discriminate. cbn. lia. }
    split; [discriminate|]. split.
    + intros i. rewrite Hd, B7, <- Hlast. cbn [q_data List.length]. rewrite nth_replace.
      destruct (Nat.leb_spec (S j) i), (Nat.ltb_spec i (S j + List.length t)), (Nat.leb_spec j i), (Nat.ltb_spec i (j + S (List.length t))); cbn [andb]; try lia.
      * replace (i - j) with (S (i - S j)) by lia. reflexivity.
      * destruct (Nat.eqb_spec i j); [lia|]. reflexivity.
      * destruct (Nat.eqb_spec i j); [|lia]. subst i. rewrite Nat.sub_diag. cbn [nth]. destruct (Nat.ltb_spec j (List.length (q_data (n_last n)))); [reflexivity|lia].
      * destruct (Nat.eqb_spec i j); [lia|]. reflexivity.
    + intros _. destruct t as [|x2 t]. { rewrite (Hnil eq_refl), En. reflexivity. }
      rewrite (Hs ltac:(discriminate)). rewrite En. reflexivity.
Qed.

Lemma step_sgd o n e n' : wf_neuron 1 n -> step o n e = Ok n' ->
  exists errs, sgd_simple o (set_err n errs) (fmul (snd e) (actd (n_act n) (n_sum n))) = Ok n'.
Proof.
  intros W. unfold step. destruct (fst e).
  - unfold simple_train. intros E. exists (n_err n). destruct n; exact E.
  - intros E. apply bind_Ok_inv in E as ([errs' n1] & E & E1). injection E1 as <-. unfold simple_backOutput in E.
    apply bind_Ok_inv in E as (errs & _ & E). apply bind_Ok_inv in E as (n2 & E & E2). injection E2 as _ <-. eauto.
Qed.
Lemma step_ok o n e : wf_neuron 1 n -> exists n', step o n e = Ok n' /\ wf_neuron 1 n'.
Proof.
  intros W. unfold step. destruct (fst e).
  - destruct (sgd_simple_ok o n (fmul (snd e) (actd (n_act n) (n_sum n))) W) as (n' & E & W'). exists n'. split; auto.
  - destruct (simple_backOutput_ok o n (snd e) W) as (n' & E & W' & _). rewrite E. cbn. eauto.
Qed.

(* one step at position k *)
Lemma step_at o n e k : wf_neuron 1 n -> k < n_batch n ->
  atk (n_batch n) (q_get (n_last n)) k -> atk (n_batch n) (q_get (n_prev n)) k -> atk (n_batch n) (q_push (n_prev n)) k ->
  exists n' ds, step o n e = Ok n' /\ wf_neuron 1 n' /\ same n n' /\ n_sum n' = n_sum n /\
    q_data (n_last n') = q_data (n_last n) /\ q_push (n_last n') = q_push (n_last n) /\ q_get (n_last n') = S k /\
    q_data (n_prev n') = replace (q_data (n_prev n)) k ds /\ q_push (n_prev n') = S k /\ q_get (n_prev n') = S k /\
    (forall w, w < n_in n ->
       nth w ds fzero = fadd (fmul (fmul (fdiv (o_lr o) (fofnat (n_batch n))) (fmul (snd e) (actd (n_act n) (n_sum n)))) (nth w (nth k (q_data (n_last n)) []) fzero))
                             (fmul (o_m o) (nth w (nth k (q_data (n_prev n)) []) fzero)) /\
       nth w (n_w n') fzero = fadd (nth w (n_w n) fzero) (nth w ds fzero)) /\
    nth (n_in n) ds fzero = fadd (fmul (fmul (fdiv (o_lr o) (fofnat (n_batch n))) (fmul (snd e) (actd (n_act n) (n_sum n)))) (n_bias n))
                                 (fmul (o_m o) (nth (n_in n) (nth k (q_data (n_prev n)) []) fzero)) /\
    nth (n_in n) (n_w n') fzero = nth (n_in n) ds fzero.
Proof.
  intros W Hk A1 A2 A3. destruct (step_ok o n e W) as (n' & E & W'). pose proof W as (_ & (_ & Hp & _) & (_ & Hl & _) & _).
  destruct (step_sgd _ _ _ _ W E) as (errs & Es).
  apply sgd_simple_inv in Es as (xs & last & ps & prev & prev' & ds & G1 & G2 & G3 & En & _ & _ & _ & _ & _ & Hd & Hdb & _ & Hw & Hwb & _).
  cbn [set_err n_last n_prev n_in n_w n_bias] in *.
  rewrite (getBack_at _ (n_batch n) k Hl Hk A1) in G1. injection G1 as <- <-.
  rewrite (getBack_at _ (n_batch n) k Hp Hk A2) in G2. injection G2 as <- <-.
  rewrite (pushBack_at _ (n_batch n) k ds) in G3 by (cbn; auto). injection G3 as <-.
  exists n', ds. split; [exact E|]. split; [exact W'|].
  rewrite En. cbn [set_wpl same n_in n_batch n_bias n_act n_sum n_last n_prev q_data q_push q_get n_w set_err].
  split; [repeat split|]. do 7 (split; [reflexivity|]). split.
  - intros w Hlt. rewrite Hw by auto. split; [|reflexivity]. rewrite Hd by auto. reflexivity.
  - split; [|exact Hwb]. rewrite Hdb. reflexivity.
Qed.

Section run.
Variables (o : SGD) (b : nat) (n : Neuron) (X : nat -> list (list F)) (E : nat -> nat -> bool * F).
Hypothesis (Hn : aligned n) (Hb : n_batch n = b).
Hypothesis HX : forall r, List.length (X r) = b /\ Forall (fun x => List.length x = n_in n) (X r).

(* row j of the stored updates after round r and k steps: D r j for the positions done in this round, D (r-1) j for the others *)
Definition Dprev (D : nat -> nat -> nat -> F) (D0 : nat -> nat -> F) (r : nat) : nat -> nat -> F := match r with O => D0 | S r => D r end.
Definition inv (D : nat -> nat -> nat -> F) (D0 : nat -> nat -> F) (s : nat -> F) (r k : nat) (m : Neuron) : Prop :=
  wf_neuron 1 m /\ same n m /\ n_sum m = s r /\
  (forall j, j < b -> nth j (q_data (n_last m)) [] = nth j (X r) []) /\
  q_push (n_last m) = b /\ atk b (q_get (n_last m)) k /\ atk b (q_get (n_prev m)) k /\ atk b (q_push (n_prev m)) k /\
  (forall j w, j < b -> w <= n_in n -> nth w (nth j (q_data (n_prev m)) []) fzero = if j <? k then D r j w else Dprev D D0 r j w).
(* the recurrence the updates obey *)
Definition recurrence (D : nat -> nat -> nat -> F) (D0 : nat -> nat -> F) (s : nat -> F) : Prop :=
  forall r k w, k < b -> w <= n_in n ->
    D r k w = fadd (fmul (fmul (fdiv (o_lr o) (fofnat b)) (fmul (snd (E r k)) (actd (n_act n) (s r))))
                         (if w =? n_in n then n_bias n else nth w (nth k (X r) []) fzero))
                   (fmul (o_m o) (Dprev D D0 r k w)).
Definition aligned0 (D : nat -> nat -> nat -> F) (D0 : nat -> nat -> F) (r : nat) (m : Neuron) : Prop :=
  aligned m /\ same n m /\ (forall j w, j < b -> w <= n_in n -> nth w (nth j (q_data (n_prev m)) []) fzero = Dprev D D0 r j w).

Lemma feed_inv D D0 (s : nat -> F) r m : aligned0 D D0 r m -> s r = neuron_sum m (last (X r) []) ->
  exists m', feed m (X r) = Ok m' /\ inv D D0 s r 0 m' /\ n_w m' = n_w m.
Proof.
  intros ((W & A1 & A2 & A3 & A4) & (S1 & S2 & S3 & S4) & HD) Hs. destruct (HX r) as [HL HF].
  pose proof W as (_ & (B0 & _) & _ & _).
  destruct (feed_from (X r) m 0 W A1) as (m' & E1 & (T1 & T2 & T3 & T4) & W' & Hw & Hpr & Hg & Hpu & _ & Hd & Hsum).
  { lia. } { now rewrite S1. }
  assert (Hne : X r <> []) by (intros HN; rewrite HN in HL; cbn in HL; lia).
  exists m'. split; [exact E1|]. split; [|exact Hw]. split; [exact W'|]. split; [repeat split; congruence|].
  split. { rewrite Hs. apply Hsum. exact Hne. }
  split. { intros j Hj. rewrite Hd. destruct (Nat.ltb_spec j (0 + List.length (X r))); [|lia]. cbn. now rewrite Nat.sub_0_r. }
  split. { rewrite Hpu by exact Hne. lia. }
  split. { rewrite Hg. rewrite S2, Hb in A2. exact A2. }
  split. { rewrite Hpr. rewrite S2, Hb in A4. exact A4. }
  split. { rewrite Hpr. rewrite S2, Hb in A3. exact A3. }
  intros j w Hj Hw'. rewrite Hpr. destruct (Nat.ltb_spec j 0); [lia|]. now apply HD.
Qed.
Lemma steps_inv D D0 s r m : recurrence D D0 s -> inv D D0 s r 0 m -> forall k, k <= b ->
  exists m', steps o m (E r) k = Ok m' /\ inv D D0 s r k m'.
Proof.
  intros HR I0. induction k as [|k IH]; intros Hk; [exists m; split; auto|].
  destruct (IH ltac:(lia)) as (m1 & E1 & I1). cbn [steps]. rewrite E1. cbn [bind].
  pose proof I1 as (W & (S1 & S2 & S3 & S4) & Hs & Hl & Hpu & A1 & A2 & A3 & HD).
  destruct (step_at o m1 (E r k) k W) as (m2 & ds & E2 & W2 & (T1 & T2 & T3 & T4) & Hsum & Q1 & Q2 & Q3 & Q4 & Q5 & Q6 & Hw & Hwb & _);
    try (rewrite S2, Hb; auto; lia).
  exists m2. split; [exact E2|]. split; [exact W2|]. split; [repeat split; congruence|]. split; [congruence|].
  split. { intros j Hj. rewrite Q1. now apply Hl. }
  split; [congruence|]. split; [left; congruence|]. split; [left; congruence|]. split; [left; congruence|].
  intros j w Hj Hwi. rewrite Q4, nth_replace. pose proof W as (_ & (_ & HL & _) & _ & _).
  destruct (Nat.eqb_spec j k).
  - subst j. destruct (Nat.ltb_spec k (List.length (q_data (n_prev m1)))); [|lia]. destruct (Nat.ltb_spec k (S k)); [|lia].
    rewrite (HR r k w ltac:(lia) Hwi). destruct (Nat.eqb_spec w (n_in n)).
    + subst w. rewrite <- S1. etransitivity; [exact Hwb|]. rewrite S2, Hb, S4, Hs, S3. f_equal. f_equal. rewrite HD by lia.
      destruct (Nat.ltb_spec k k); [lia|]. congruence.
    + destruct (Hw w ltac:(lia)) as [-> _]. rewrite S2, Hb, S4, Hs, Hl, HD by lia. destruct (Nat.ltb_spec k k); [lia|]. reflexivity.
  - rewrite HD by lia. destruct (Nat.ltb_spec j k), (Nat.ltb_spec j (S k)); auto; lia.
Qed.
Lemma steps_weights D D0 s r m : recurrence D D0 s -> inv D D0 s r 0 m -> forall k, k < b ->
  exists m1 m2, steps o m (E r) k = Ok m1 /\ steps o m (E r) (S k) = Ok m2 /\
    (forall w, w < n_in n -> nth w (n_w m2) fzero = fadd (nth w (n_w m1) fzero) (D r k w)) /\
    nth (n_in n) (n_w m2) fzero = D r k (n_in n).
Proof.
  intros HR I0 k Hk. destruct (steps_inv D D0 s r m HR I0 k ltac:(lia)) as (m1 & E1 & I1). exists m1.
  cbn [steps]. rewrite E1. cbn [bind].
  pose proof I1 as (W & (S1 & S2 & S3 & S4) & Hs & Hl & Hpu & A1 & A2 & A3 & HD).
  destruct (step_at o m1 (E r k) k W) as (m2 & ds & E2 & _ & _ & _ & _ & _ & _ & _ & _ & _ & Hw & Hwb & Hwb2);
    try (rewrite S2, Hb; auto; lia).
  exists m2. split; [auto|]. split; [auto|]. split.
  - intros w Hwi. destruct (Hw w ltac:(lia)) as [D1 ->]. f_equal. rewrite D1, (HR r k w) by lia. destruct (Nat.eqb_spec w (n_in n)); [lia|].
    rewrite S2, Hb, S4, Hs, Hl, HD by lia. destruct (Nat.ltb_spec k k); [lia|]. reflexivity.
  - rewrite <- S1. etransitivity; [exact Hwb2|]. etransitivity; [exact Hwb|]. rewrite (HR r k (n_in m1)) by lia. rewrite S1, Nat.eqb_refl.
    rewrite S2, Hb, S4, Hs, S3, HD by lia. destruct (Nat.ltb_spec k k); [lia|]. reflexivity.
Qed.
End run.

Section whole.
Variables (o : SGD) (b ni : nat) (bias : F) (a : activation) (draws : nat -> F) (n : Neuron).
Variables (X : nat -> list (list F)) (E : nat -> nat -> bool * F).
Hypothesis (Hb : 0 < b) (Hn : neuron_init ni b (ni + 1) bias a draws = Ok n).
Hypothesis HX : forall r, List.length (X r) = b /\ Forall (fun x => List.length x = ni) (X r).

Definition Wf (r k : nat) : list F := match state o b n X E r k with Ok m => n_w m | _ => [] end.
Definition Sf (r : nat) : F := match state o b n X E r 0 with Ok m => n_sum m | _ => fzero end.
Fixpoint Df (r k w : nat) : F :=
  fadd (fmul (fmul (fdiv (o_lr o) (fofnat b)) (fmul (snd (E r k)) (actd a (Sf r)))) (if w =? ni then bias else nth w (nth k (X r) []) fzero))
       (fmul (o_m o) (match r with O => fzero | S r => Df r k w end)).

Lemma n_facts : aligned n /\ n_batch n = b /\ n_in n = ni /\ n_act n = a /\ n_bias n = bias /\ n_prev n = circ_init b (ni + 1).
Proof.
  destruct (neuron_init_wf ni b 1 bias a draws Hb ltac:(lia)) as (n' & E' & W & A & B & C & D).
  rewrite Hn in E'. injection E' as <-. split; [|repeat split; auto].
  - split; [exact W|]. pose proof Hn as E1. unfold neuron_init in E1. destruct (ni + 1); [discriminate|]. injection E1 as <-. cbn. repeat split; left; reflexivity.
  - pose proof Hn as E1. unfold neuron_init in E1. destruct (ni + 1); [discriminate|]. injection E1 as <-. reflexivity.
Qed.
Lemma Df_rec : recurrence o b n X E Df (fun _ _ => fzero) Sf.
Proof.
  intros r k w Hk Hw. destruct n_facts as (_ & _ & -> & -> & -> & _). destruct r; reflexivity.
Qed.
Lemma start_inv r : exists m, start o b n X E r = Ok m /\ aligned0 b n Df (fun _ _ => fzero) r m.
Proof.
  destruct n_facts as (Ha & Hbn & Hi & Hac & Hbi & Hp). induction r as [|r IH].
  - exists n. split; [reflexivity|]. split; [exact Ha|]. split; [repeat split|]. intros j w _ _. cbn [Dprev]. rewrite Hp. cbn [circ_init q_data].
    destruct (nth_in_or_default j (repeat (repeat fzero (ni + 1)) b) []) as [H|H]; [apply repeat_spec in H|]; rewrite H.
    + destruct (nth_in_or_default w (repeat fzero (ni + 1)) fzero) as [H'|H']; [apply repeat_spec in H'|]; auto.
    + destruct w; reflexivity.
  - destruct IH as (m & E1 & A). cbn [start]. rewrite E1. cbn [bind].
    assert (HX' : forall r, List.length (X r) = b /\ Forall (fun x => List.length x = n_in n) (X r)) by (rewrite Hi; exact HX).
    destruct (feed_inv b n X Hbn HX' Df (fun _ _ => fzero) Sf r m A) as (m1 & E2 & I1 & _).
    { unfold Sf, state. rewrite E1. cbn [bind]. destruct A as ((W & A1 & _) & (S1 & S2 & _) & _).
      destruct (HX' r) as [HL HF]. destruct (feed_from (X r) m 0 W A1) as (m' & E3 & _ & _ & _ & _ & _ & _ & _ & _ & Hsum).
      { lia. } { now rewrite S1. } rewrite E3. cbn. apply Hsum. intros HN. rewrite HN in HL. cbn in HL. lia. }
    rewrite E2. cbn [bind].
    destruct (steps_inv o b n X E Hbn Df (fun _ _ => fzero) Sf r m1 Df_rec I1 b (le_n _)) as (m2 & E3 & I2).
    exists m2. split; [exact E3|]. destruct I2 as (W & S & Hs & Hl & Hpu & A1 & A2 & A3 & HD).
    assert (G : forall p, atk b p b -> p = b) by (intros p [?|[? ?]]; lia).
    assert (Hbm : n_batch m2 = b) by (destruct S as (_ & -> & _); exact Hbn).
    split; [|split; [exact S|]].
    + split; [exact W|]. rewrite Hbm, (G _ A1), (G _ A2), (G _ A3), Hpu. repeat split; right; auto.
    + intros j w Hj Hw. rewrite HD by auto. destruct (Nat.ltb_spec j b); [reflexivity|lia].
Qed.
Lemma state_inv r : exists m m1, start o b n X E r = Ok m /\ feed m (X r) = Ok m1 /\ n_w m1 = n_w m /\
  Sf r = neuron_sum m (last (X r) []) /\ inv b n X Df (fun _ _ => fzero) Sf r 0 m1 /\ same n m.
Proof.
  destruct n_facts as (Ha & Hbn & Hi & Hac & Hbi & Hp).
  destruct (start_inv r) as (m & E1 & A). exists m.
  assert (HX' : forall r, List.length (X r) = b /\ Forall (fun x => List.length x = n_in n) (X r)) by (rewrite Hi; exact HX).
  assert (Hs : Sf r = neuron_sum m (last (X r) [])).
  { unfold Sf, state. rewrite E1. cbn [bind]. destruct A as ((W & A1 & _) & (S1 & S2 & _) & _).
    destruct (HX' r) as [HL HF]. destruct (feed_from (X r) m 0 W A1) as (m' & E3 & _ & _ & _ & _ & _ & _ & _ & _ & Hsum).
    { lia. } { now rewrite S1. } rewrite E3. cbn. apply Hsum. intros HN. rewrite HN in HL. cbn in HL. lia. }
  destruct (feed_inv b n X Hbn HX' Df (fun _ _ => fzero) Sf r m A Hs) as (m1 & E2 & I1 & Hw). exists m1.
  split; [exact E1|]. split; [exact E2|]. split; [exact Hw|]. split; [exact Hs|]. split; [exact I1|]. apply A.
Qed.
End whole.

(* The whole story of a neuron with b positions, from its construction and for every number of rounds:
   W r k = weights in round r after k steps, S r = the sum kept by the neuron in round r, D r k w = update number k of round r.
   - outputs change no weight; no step ever fails;
   - update k of a round uses the inputs of output k of the same round (X r k), in every round;
   - momentum multiplies the update made for the same position k in the previous round;
   - but the derivative of the activation is always taken at the sum S r of the LAST output of the round. *)
Theorem C32_rounds_partial : forall (o : SGD) (b ni : nat) (bias : F) (a : activation) (draws : nat -> F) (n : Neuron)
    (X : nat -> list (list F)) (E : nat -> nat -> bool * F),
  0 < b -> neuron_init ni b (ni + 1) bias a draws = Ok n ->
  (forall r, List.length (X r) = b /\ Forall (fun x => List.length x = ni) (X r)) ->
  exists (W : nat -> nat -> list F) (S : nat -> F) (D : nat -> nat -> nat -> F),
    W 0 0 = n_w n /\ (forall r, W (r + 1) 0 = W r b) /\
    (forall r k, k <= b -> exists m, state o b n X E r k = Ok m /\ n_w m = W r k /\ n_sum m = S r) /\
    (forall r, exists t, weighted (last (X r) []) (W r 0) = Ok t /\ S r = fadd t (fmul (nth ni (W r 0) fzero) bias)) /\
    (forall r k w, k < b -> w < ni -> nth w (W r (k + 1)) fzero = fadd (nth w (W r k) fzero) (D r k w)) /\
    (forall k w, k < b -> w < ni ->
       D 0 k w = fadd (fmul (fmul (fdiv (o_lr o) (fofnat b)) (fmul (snd (E 0 k)) (actd a (S 0)))) (nth w (nth k (X 0) []) fzero))
                      (fmul (o_m o) fzero)) /\
    (forall r k w, k < b -> w < ni ->
       D (r + 1) k w = fadd (fmul (fmul (fdiv (o_lr o) (fofnat b)) (fmul (snd (E (r + 1) k)) (actd a (S (r + 1))))) (nth w (nth k (X (r + 1)) []) fzero))
                            (fmul (o_m o) (D r k w))).
Proof.
  intros o b ni bias a draws n X E Hb Hn HX.
  destruct (n_facts b ni bias a draws n Hb Hn) as (Ha & Hbn & Hi & Hac & Hbi & Hp).
  pose proof (Df_rec o b ni bias a draws n X E Hb Hn) as HR.
  exists (Wf o b n X E), (Sf o b n X E), (Df o b ni bias a n X E).
  assert (ST : forall r, exists m m1, start o b n X E r = Ok m /\ feed m (X r) = Ok m1 /\ n_w m1 = n_w m /\ Sf o b n X E r = neuron_sum m (last (X r) []) /\
     inv b n X (Df o b ni bias a n X E) (fun _ _ => fzero) (Sf o b n X E) r 0 m1 /\ same n m) by (intros r; eapply state_inv; eauto).
  split. { unfold Wf, state. destruct (ST 0) as (m & m1 & E1 & E2 & Hw & _). cbn in E1. injection E1 as <-. cbn [start bind]. rewrite E2. cbn. exact Hw. }
  split. { intros r. rewrite Nat.add_1_r. destruct (ST r) as (m & m1 & E1 & E2 & Hw & _ & I1 & _). destruct (ST (S r)) as (m' & m1' & E1' & E2' & Hw' & _).
    unfold Wf, state. rewrite E1'. cbn [bind]. rewrite E2'. cbn [bind steps]. rewrite Hw'. pose proof E1' as E3. cbn [start] in E3. rewrite E1 in E3. cbn [bind] in E3.
    rewrite E2 in E3. cbn [bind] in E3. rewrite E1. cbn [bind]. rewrite E2. cbn [bind]. rewrite E3. reflexivity. }
  split. { intros r k Hk. destruct (ST r) as (m & m1 & E1 & E2 & Hw & _ & I1 & _).
    destruct (steps_inv o b n X E Hbn _ _ _ r m1 HR I1 k Hk) as (m2 & E3 & I2). exists m2. unfold Wf, state. rewrite E1. cbn [bind]. rewrite E2. cbn [bind]. rewrite E3.
    split; [reflexivity|]. split; [reflexivity|]. apply I2. }
  split. { intros r. destruct (ST r) as (m & m1 & E1 & E2 & Hw & Hs & I1 & (S1 & S2 & S3 & S4)). unfold Wf, state. rewrite E1. cbn [bind]. rewrite E2. cbn [bind steps].
    destruct I1 as ((Wl & _) & (T1 & _) & _). destruct (HX r) as [HL HF]. 
    assert (Hlast : List.length (last (X r) []) = ni).
    { rewrite Forall_forall in HF. apply HF. destruct (exists_last (l := X r)) as (l' & y & Hy). - intros HN. rewrite HN in HL. cbn in HL. lia. - rewrite Hy. rewrite last_last. apply in_or_app. right. left. reflexivity. }
    rewrite Hw in Wl |- *. rewrite Hs. eexists. split; [apply weighted_ok; rewrite Hlast; lia|].
    unfold neuron_sum. rewrite Hlast, S3, Hbi. reflexivity. }
  split. { intros r k w Hk Hwi. rewrite Nat.add_1_r. destruct (ST r) as (m & m1 & E1 & E2 & Hw & _ & I1 & _).
    destruct (steps_weights o b n X E Hbn _ _ _ r m1 HR I1 k Hk) as (m2 & m3 & E3 & E4 & G & _). unfold Wf, state. rewrite E1. cbn [bind]. rewrite E2. cbn [bind].
    rewrite E3, E4. apply G. lia. }
  split.
  - intros k w Hk Hw. cbn [Df]. destruct (Nat.eqb_spec w ni); [lia|]. reflexivity.
  - intros r k w Hk Hw. rewrite Nat.add_1_r. cbn [Df]. destruct (Nat.eqb_spec w ni); [lia|]. reflexivity.
Qed.
End R.
Print Assumptions C32_rounds_partial.

(* One position (fully connected layers): momentum over any number of training steps. *)
Theorem C24_momentum_neuron : forall {N : Num} (o : SGD) (ni : nat) (bias : F) (a : activation) (draws : nat -> F) (n : Neuron)
    (x : nat -> list F) (E : nat -> bool * F),
  neuron_init ni 1 (ni + 1) bias a draws = Ok n -> (forall t, List.length (x t) = ni) ->
  exists (W : nat -> list F) (S : nat -> F) (D : nat -> nat -> F),
    W 0 = n_w n /\
    (forall t, exists m m', start o 1 n (fun t => [x t]) (fun t _ => E t) t = Ok m /\ n_w m = W t /\
                            simple_output m (x t) = Ok (act a (S t), m') /\ step o m' (E t) = start o 1 n (fun t => [x t]) (fun t _ => E t) (t + 1)) /\
    (forall t w, w < ni -> nth w (W (t + 1)) fzero = fadd (nth w (W t) fzero) (D t w)) /\
    (forall t w, w < ni -> D t w =
        fadd (fmul (fmul (fdiv (o_lr o) (fofnat 1)) (fmul (snd (E t)) (actd a (S t)))) (nth w (x t) fzero))
             (fmul (o_m o) (match t with O => fzero | Datatypes.S t' => D t' w end))).
Proof.
  intros N o ni bias a draws n x E Hn Hx.
  assert (HX : forall r, List.length [x r] = 1 /\ Forall (fun x => List.length x = ni) [x r]) by (intros r; split; [reflexivity|repeat constructor; apply Hx]).
  destruct (n_facts 1 ni bias a draws n ltac:(lia) Hn) as (Ha & Hbn & Hi & Hac & Hbi & Hp).
  destruct (C32_rounds_partial o 1 ni bias a draws n (fun t => [x t]) (fun t _ => E t) ltac:(lia) Hn HX) as (W & S & D & H0 & Hs & Hst & Hsum & HW & HD0 & HD).
  exists (fun t => W t 0), S, (fun t w => D t 0 w). split; [exact H0|]. split; [|split].
  - intros t. destruct (state_inv o 1 ni bias a draws n (fun t => [x t]) (fun t _ => E t) ltac:(lia) Hn HX t) as (m & m1 & E1 & E2 & Hw & HS & I & Sm).
    exists m. cbn [feed] in E2. apply bind_Ok_inv in E2 as ([v m1'] & E2 & E3). injection E3 as ->.
    destruct (Hst t 0 ltac:(lia)) as (m2 & E4 & E5 & E6). unfold state in E4. rewrite E1 in E4. cbn [bind feed] in E4. rewrite E2 in E4. cbn in E4. injection E4 as <-.
    exists m1. split; [exact E1|]. split; [congruence|]. pose proof (simple_output_inv _ _ _ _ E2) as (-> & last & _ & En).
    split. { rewrite E2. unfold neuron_value. destruct Sm as (_ & _ & _ & ->). rewrite Hac. do 3 f_equal. rewrite <- E6, En. reflexivity. }
    rewrite Nat.add_1_r. cbn [start]. rewrite E1. cbn [bind feed]. rewrite E2. cbn. reflexivity.
  - intros t w Hw. rewrite <- (HW t 0 w) by lia. f_equal. change (0 + 1) with 1. now rewrite Hs.
  - intros [|t] w Hw; [apply HD0; lia|]. specialize (HD t 0 w ltac:(lia) Hw). now rewrite Nat.add_1_r in HD.
Qed.
Print Assumptions C24_momentum_neuron.

(* a neuron with 2 inputs and 3 positions, and rounds with non-trivial inputs, meet the hypotheses *)
Example C32_hypotheses_met : exists n, @neuron_init RNum 2 3 (2 + 1) 1%R a_tanh (fun i => INR i) = Ok n /\
  forall r : nat, List.length [[1; INR r]; [2; 3]; [INR r; 5]]%R = 3 /\ Forall (fun x => List.length x = 2) [[1; INR r]; [2; 3]; [INR r; 5]]%R.
Proof. eexists. split; [reflexivity|]. intros r. repeat constructor. Qed.

(* Refuted: the k-th back-propagation does not use the sum of the k-th output.  A neuron with two positions and ReLU, fed 1
   then -1: the update for position 0 is zero although its own sum is 1 (derivative 1). *)
Theorem C32_sum_of_position_refuted : exists (o : @SGD RNum) (n n1 n2 n3 : @Neuron RNum) (v0 v1 : R),
  n_batch n = 2 /\
  @simple_output RNum n [1%R] = Ok (v0, n1) /\ @simple_output RNum n1 [(-1)%R] = Ok (v1, n2) /\ @simple_train RNum o n2 1%R = Ok n3 /\
  n_sum n1 = 1%R /\ @actd RNum (n_act n) (n_sum n1) = 1%R /\ o_lr o = (1/2)%R /\ o_m o = 0%R /\
  @nth R 0 (n_w n2) 0%R = 1%R /\ @nth R 0 (n_w n3) 0%R = 1%R.
Proof.
  set (n := @mkNeuron RNum 1 2 [1; 0]%R 1%R (@circ_init RNum 2 2) (@circ_init RNum 2 1) [0%R] 0%R a_ReLU).
  assert (A : @weighted RNum [1%R] [1; 0]%R = Ok 1%R) by (cbn; unfold fofZ; cbn; f_equal; lra).
  assert (B : @weighted RNum [(-1)%R] [1; 0]%R = Ok (-1)%R) by (cbn; unfold fofZ; cbn; f_equal; lra).
  exists (@mkSGD RNum (1/2)%R 0%R), n. unfold simple_output. cbn [n n_w n_last]. 
  eexists _, _, _, _, _. split; [reflexivity|]. cbn [n_w n_bias n_act].
  split. { cbn [pushBack circ_init q_data q_push repeat List.length]. cbn [bind lset]. rewrite A. cbn. reflexivity. }
  cbn [set_sum n_w n_bias n_act n_last].
  split. { cbn [pushBack q_data q_push List.length]. cbn. reflexivity. }
  split. { cbn. reflexivity. }
  cbn. unfold fgtb, fofZ; cbn. unfold Rltb. repeat split; try lra; repeat (destruct (Rlt_dec _ _)); try lra.
Qed.
Print Assumptions C32_sum_of_position_refuted.
