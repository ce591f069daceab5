(* Two networks that only differ by the inputs, the sums and the maxima remembered from the last forward pass learn the same. *)
From Verif Require Import Base Num ActModel NeuronModel LayerModel NetModel NeuronProofs AlikeProofs LookSpec.
Local Open Scope outcome_scope.

Lemma each_from_rel2 {A A2 B} (R S : A -> A2 -> Prop) (f : nat -> A -> outcome (B * A)) (g : nat -> A2 -> outcome (B * A2)) l l2 :
  Forall2 R l l2 -> (forall i a b, R a b -> orel (with_out S) (f i a) (g i b)) -> forall i, orel (with_out (Forall2 S)) (each_from f i l) (each_from g i l2).
Proof.
  intros H Hf. induction H as [|a b l l2 Hab Hl IH]; intros i; cbn [each_from]; [split; [reflexivity|constructor]|].
  eapply orel_bind; [apply (Hf i a b Hab)|]. intros p q (E1 & E2). eapply orel_bind; [apply IH|]. intros u v (E3 & E4). cbn. split; cbn; [congruence|now constructor].
Qed.
Lemma each_from_len {A B} (f : nat -> A -> outcome (B * A)) l : forall i r l', each_from f i l = Ok (r, l') -> List.length l' = List.length l.
Proof.
  induction l as [|a l IH]; intros i r l' H; cbn [each_from] in H; [injection H as _ <-; reflexivity|]. destruct (f i a) as [[b a']| |]; try discriminate. cbn [bind] in H. destruct (each_from f (S i) l) as [[r2 l2]| |] eqn:E; try discriminate. cbn in H. injection H as _ <-. cbn. f_equal. exact (IH _ _ _ E).
Qed.
Lemma each_len {A B} (f : nat -> A -> outcome (B * A)) l r l' : each f l = Ok (r, l') -> List.length l' = List.length l.
Proof. apply each_from_len. Qed.
Lemma Forall2_len {A B} (P : A -> B -> Prop) l r : Forall2 P l r -> List.length l = List.length r.
Proof. induction 1; cbn; congruence. Qed.
Section P.
Context {N : Num}.
(* ---------- the queue of inputs ---------- *)
Definition slot (c : Circ) : nat := if List.length (q_data c) <=? q_push c then 0 else q_push c.
(* how many pushes ago row p was written, if it was *)
Definition age (c : Circ) (p : nat) : nat := if p <? slot c then slot c - 1 - p else slot c + List.length (q_data c) - 1 - p.
Definition crel (j : nat) (a b : Circ) : Prop :=
  List.length (q_data a) = List.length (q_data b) /\ q_get a = q_get b /\ slot a = slot b /\
  forall p, p < List.length (q_data a) -> age a p < j -> nth_error (q_data a) p = nth_error (q_data b) p.
Lemma slot_lt c : 0 < List.length (q_data c) -> slot c < List.length (q_data c).
Proof. intros H. unfold slot. destruct (Nat.leb_spec (List.length (q_data c)) (q_push c)); lia. Qed.
Lemma push_slot c v c' : pushBack c v = Ok c' -> q_data c' = replace (q_data c) (slot c) v /\ q_get c' = q_get c /\ slot c < List.length (q_data c) /\
  slot c' = (if List.length (q_data c) <=? S (slot c) then 0 else S (slot c)).
Proof.
  unfold pushBack. fold (slot c). unfold lset. destruct (Nat.ltb_spec (slot c) (List.length (q_data c))) as [H|H]; [|discriminate]. cbn [bind]. intros E. injection E as <-. cbn [q_data q_get].
  split; [reflexivity|]. split; [reflexivity|]. split; [exact H|]. unfold slot at 1. cbn [q_data q_push]. now rewrite replace_length.
Qed.
Lemma push_rel j a b v : crel j a b -> orel (crel (S j)) (pushBack a v) (pushBack b v).
Proof.
  intros (HL & HG & HS & HD). destruct (pushBack a v) as [a'| |] eqn:Ea, (pushBack b v) as [b'| |] eqn:Eb; cbn; auto;
    try (exfalso; revert Ea Eb; unfold pushBack; fold (slot a); fold (slot b); rewrite <- HS; unfold lset; rewrite <- HL; destruct (slot a <? _); cbn; discriminate).
  apply push_slot in Ea as (A1 & A2 & A3 & A4). apply push_slot in Eb as (B1 & B2 & B3 & B4).
  split; [now rewrite A1, B1, !replace_length|]. split; [congruence|]. split; [rewrite A4, B4, HS, HL; reflexivity|].
  intros p Hp Hage. rewrite A1, B1, <- HS, !nth_error_replace. rewrite <- HL. destruct (Nat.eqb_spec p (slot a)) as [->|Hne]; [reflexivity|].
  apply HD; [now rewrite A1, replace_length in Hp|]. rewrite A1, replace_length in Hp. unfold age in *. rewrite A4, A1, replace_length in Hage.
  set (L := List.length (q_data a)) in *. set (s := slot a) in *. clearbody L s. destruct (Nat.ltb_spec p s); destruct (Nat.leb_spec L (S s)); [destruct (Nat.ltb_spec p 0)|destruct (Nat.ltb_spec p (S s))|destruct (Nat.ltb_spec p 0)|destruct (Nat.ltb_spec p (S s))]; lia.
Qed.
Lemma crel_full a b : crel (List.length (q_data a)) a b -> q_data a = q_data b.
Proof.
  intros (HL & _ & _ & HD). assert (G : forall (u w : list (list F)), List.length u = List.length w -> (forall p, p < List.length u -> nth_error u p = nth_error w p) -> u = w).
  { induction u as [|r u IH]; intros [|q w] El H; try discriminate; [reflexivity|]. assert (E0 := H 0 ltac:(cbn; lia)). cbn in E0. injection E0 as <-. f_equal. apply IH; [now injection El|]. intros p Hp. exact (H (S p) ltac:(cbn; lia)). }
  apply G; [exact HL|]. intros p Hp. apply HD; [exact Hp|]. unfold age. assert (S1 := slot_lt a ltac:(lia)). destruct (Nat.ltb_spec p (slot a)); lia.
Qed.
Lemma get_rel L a b : List.length (q_data a) = L -> crel L a b -> orel (with_out (fun a' b' => crel L a' b' /\ List.length (q_data a') = L)) (getBack a) (getBack b).
Proof.
  intros HL H. assert (E := crel_full a b ltac:(rewrite HL; exact H)). destruct H as (_ & HG & HS & HD). unfold getBack. rewrite <- E, <- HG. eapply orel_bind; [apply orel_eq|]. intros v w <-.
  split; [reflexivity|]. cbn [snd]. split; [|exact HL]. split; [reflexivity|]. split; [reflexivity|]. split; [unfold slot in *; cbn [q_data q_push]; rewrite HS, E; reflexivity|]. intros; reflexivity.
Qed.
Lemma crel_weak j k a b : k <= j -> crel j a b -> crel k a b.
Proof. intros H (A & B & C & D). repeat split; auto. intros p Hp Ha. apply D; lia. Qed.

(* ---------- the neuron ---------- *)
Definition nbase (a b : Neuron) : Prop := n_in a = n_in b /\ n_batch a = n_batch b /\ n_w a = n_w b /\ n_bias a = n_bias b /\ n_prev a = n_prev b /\ n_act a = n_act b /\ List.length (n_err a) = List.length (n_err b).
Definition nr (st : bool) (j : nat) (a b : Neuron) : Prop := nbase a b /\ crel j (n_last a) (n_last b) /\ (st = true -> n_sum a = n_sum b).
(* st: after a forward pass of a training; otherwise at any moment *)
Definition bq (st : bool) (L : nat) (a b : Neuron) : Prop := nr st (if st then L else 0) a b /\ List.length (q_data (n_last a)) = L.
Lemma bq_weak L a b : bq true L a b -> bq false L a b.
Proof. intros ((A & B & C) & D). split; [|exact D]. split; [exact A|]. split; [apply crel_weak with (j := L); [lia|exact B]|discriminate]. Qed.
Lemma simple_output_rel L st j a b x : nr st j a b -> List.length (q_data (n_last a)) = L -> orel (with_out (fun a' b' => nr true (S j) a' b' /\ List.length (q_data (n_last a')) = L)) (simple_output a x) (simple_output b x).
Proof.
  intros ((E1 & E2 & E3 & E4 & E5 & E6 & E7) & HC & _) HL. unfold simple_output. destruct (pushBack (n_last a) x) as [la| |] eqn:Ea.
  - assert (P := push_rel j _ _ x HC). rewrite Ea in P. destruct (pushBack (n_last b) x) as [lb| |] eqn:Eb; cbn in P; try contradiction. cbn [bind]. rewrite <- E3, <- E4, <- E6.
    eapply orel_bind; [apply orel_eq|]. intros ? ? <-. eapply orel_bind; [apply orel_eq|]. intros ? ? <-. split; [reflexivity|]. cbn [snd]. split; [|cbn [n_last set_sum]; apply push_slot in Ea as (-> & _); now rewrite replace_length].
    split; [|split; [exact P|reflexivity]]. repeat split; cbn; auto.
  - assert (P := push_rel j _ _ x HC). rewrite Ea in P. destruct (pushBack (n_last b) x); cbn in P; try contradiction. subst. cbn. reflexivity.
  - assert (P := push_rel j _ _ x HC). rewrite Ea in P. destruct (pushBack (n_last b) x); cbn in P; try contradiction. exact I.
Qed.
Lemma sgd_rel o L a b e : bq true L a b -> orel (bq true L) (sgd_simple o a e) (sgd_simple o b e).
Proof.
  intros (((E1 & E2 & E3 & E4 & E5 & E6 & E7) & HC & HS) & HL). unfold sgd_simple. eapply orel_bind; [exact (get_rel L _ _ HL HC)|]. intros [x la] [y lb] (Ex & HC' & HL'). cbn in Ex, HC', HL'. subst y.
  rewrite <- E5. eapply orel_bind; [apply orel_eq|]. intros [p pa] ? <-. rewrite <- E1, <- E2, <- E3, <- E4.
  eapply orel_bind; [apply orel_eq|]. intros ds ? <-. eapply orel_bind; [apply orel_eq|]. intros ws ? <-. eapply orel_bind; [apply orel_eq|]. intros pb ? <-.
  eapply orel_bind; [apply orel_eq|]. intros ? ? _. eapply orel_bind; [apply orel_eq|]. intros pr ? <-. cbn. split; [|exact HL']. split; [repeat split; cbn; auto|]. split; [exact HC'|exact HS].
Qed.
Lemma back_rel o L a b e : bq true L a b -> orel (with_out (bq true L)) (simple_backOutput o a e) (simple_backOutput o b e).
Proof.
  intros H. pose proof H as (((E1 & E2 & E3 & E4 & E5 & E6 & E7) & HC & HS) & HL). unfold simple_backOutput. rewrite <- (HS eq_refl), <- E6, <- E7, <- E3.
  eapply orel_bind; [apply orel_eq|]. intros es ? <-. eapply orel_bind; [apply (sgd_rel o L)|].
  - split; [|exact HL]. split; [repeat split; cbn; auto|]. split; [exact HC|exact HS].
  - intros a' b' H'. now split.
Qed.
Lemma train_rel o L a b e : bq true L a b -> orel (bq true L) (simple_train o a e) (simple_train o b e).
Proof. intros H. pose proof H as (((_ & _ & _ & _ & _ & E6 & _) & _ & HS) & _). unfold simple_train. rewrite <- (HS eq_refl), <- E6. now apply sgd_rel. Qed.

(* ---------- the layer ---------- *)
Definition prel (st : bool) (f g : Filter) : Prop := set_maxIndex f [] = set_maxIndex g [] /\ List.length (f_maxIndex f) = List.length (f_maxIndex g) /\
  skipn (List.length (f_index f)) (f_maxIndex f) = skipn (List.length (f_index f)) (f_maxIndex g) /\ (st = true -> f = g).
Inductive brel (st : bool) : Body -> Body -> Prop :=
| br_full x y : Forall2 (bq st 1) x y -> brel st (BFull x) (BFull y)
| br_conv k f x y : k = Conv1D \/ k = Conv2D -> 0 < List.length (f_index f) -> Forall2 (bq st (List.length (f_index f))) x y -> brel st (BFilter k f x) (BFilter k f y)
| br_loc k f x y : k = Loc1D \/ k = Loc2D -> List.length x = List.length (f_index f) * f_filters f -> Forall2 (bq st 1) x y -> brel st (BFilter k f x) (BFilter k f y)
| br_pool k f g ns : k = Pool1D \/ k = Pool2D -> prel st f g -> brel st (BFilter k f ns) (BFilter k g ns).
Lemma F2_imp {A B} (P Q : A -> B -> Prop) l l' : (forall a b, P a b -> Q a b) -> Forall2 P l l' -> Forall2 Q l l'.
Proof. intros H. induction 1; constructor; auto. Qed.
Lemma brel_weak a b : brel true a b -> brel false a b.
Proof.
  destruct 1 as [x y H|k f x y Hk Hl H|k f x y Hk Hl H|k f g ns Hk H]; [apply br_full|apply br_conv|apply br_loc|apply br_pool]; auto; try (eapply F2_imp; [|exact H]; intros; now apply bq_weak).
  destruct H as (A & B & C & D). repeat split; auto; discriminate.
Qed.
Lemma F2_w st L x y : Forall2 (bq st L) x y -> map n_w x = map n_w y.
Proof. induction 1 as [|a b x y (((_ & _ & E & _) & _) & _) _ IH]; [reflexivity|]. cbn. congruence. Qed.
Lemma brel_weights st a b : brel st a b -> body_weights a = body_weights b.
Proof. destruct 1; cbn; try reflexivity; eauto using F2_w. Qed.
(* a forward pass over all the windows of a convolution *)
Lemma conv_rows f x L rows : forall j st u v acc, Forall2 (fun a b => nr st j a b /\ List.length (q_data (n_last a)) = L) u v -> rows = [] /\ st = true \/ rows <> [] ->
  orel (with_out (Forall2 (fun a b => nr true (j + List.length rows) a b /\ List.length (q_data (n_last a)) = L)))
    (ofold (fun s row => let* win := convWindow f x row in let* (o, ns') := each (fun _ n => simple_output n win) (snd s) in Ok (fst s ++ o, ns')) rows (acc, u))
    (ofold (fun s row => let* win := convWindow f x row in let* (o, ns') := each (fun _ n => simple_output n win) (snd s) in Ok (fst s ++ o, ns')) rows (acc, v)).
Proof.
  induction rows as [|r rows IH]; intros j st u v acc H Hne; cbn [ofold].
  - destruct Hne as [[_ ->]|Hne]; [|congruence]. rewrite Nat.add_0_r. split; [reflexivity|exact H].
  - eapply orel_bind with (R := with_out (Forall2 (fun a b => nr true (S j) a b /\ List.length (q_data (n_last a)) = L))).
    + eapply orel_bind; [apply orel_eq|]. intros win ? <-. cbn [fst snd]. eapply orel_bind; [apply (each_from_rel2 (fun a b => nr st j a b /\ List.length (q_data (n_last a)) = L) (fun a b => nr true (S j) a b /\ List.length (q_data (n_last a)) = L) _ _ u v H)|].
      * intros i a b (Hab & HL). now apply (simple_output_rel L st).
      * intros [o1 n1] [o2 n2] (Eo & Hn). cbn in Eo, Hn. subst o2. split; [reflexivity|exact Hn].
    + intros [a1 n1] [a2 n2] (Ea & Hn). cbn in Ea, Hn. subst a2. replace (j + List.length (r :: rows)) with (S j + List.length rows) by (cbn; lia). apply (IH (S j) true); [exact Hn|]. destruct rows; [now left|right; discriminate].
Qed.
Lemma bq_split st L x y : Forall2 (bq st L) x y <-> Forall2 (fun a b => nr st (if st then L else 0) a b /\ List.length (q_data (n_last a)) = L) x y.
Proof. split; intros H; exact H. Qed.
Lemma full_rel x y v : Forall2 (bq false 1) x y -> orel (with_out (Forall2 (bq true 1))) (each (fun _ n => simple_output n v) x) (each (fun _ n => simple_output n v) y).
Proof. intros H. apply (each_from_rel2 (bq false 1) (bq true 1)); [exact H|]. intros i a b (Hab & HL). now apply (simple_output_rel 1 false). Qed.
Lemma skip_eq {A} n (l l' : list A) best : List.length best = n -> skipn n l = skipn n l' -> best ++ skipn (List.length best) l = best ++ skipn (List.length best) l'.
Proof. intros -> ->. reflexivity. Qed.
Lemma body_forward a b x t : brel false a b -> orel (with_out (brel true)) (body_output a x t) (body_output b x t).
Proof.
  destruct 1 as [u v H|k f u v Hk Hl H|k f u v Hk Hl H|k f g ns Hk H].
  - cbn [body_output]. eapply orel_bind; [now apply full_rel|]. intros [o1 n1] [o2 n2] (Eo & Hn). cbn in Eo, Hn. subst o2. split; [reflexivity|]. now apply br_full.
  - assert (G : orel (with_out (Forall2 (bq true (List.length (f_index f))))) (conv_output f u x) (conv_output f v x)).
    { unfold conv_output. eapply orel_bind; [apply (conv_rows f x (List.length (f_index f)) (f_index f) 0 false u v []); [exact H|right; destruct (f_index f); [cbn in Hl; lia|discriminate]]|]. intros [o1 n1] [o2 n2] (Eo & Hn). cbn in Eo, Hn. subst o2.
      eapply orel_bind; [apply orel_eq|]. intros ? ? <-. split; [reflexivity|exact Hn]. }
    destruct Hk as [-> | ->]; cbn [body_output]; (eapply orel_bind; [exact G|]; intros [o1 n1] [o2 n2] (Eo & Hn); cbn in Eo, Hn; subst o2; split; [reflexivity|]; apply br_conv; auto).
  - assert (G : orel (with_out (fun a b => Forall2 (bq true 1) a b /\ List.length a = List.length u)) (loc_output f u x) (loc_output f v x)).
    { assert (El := Forall2_len _ _ _ H). unfold loc_output. rewrite <- El, Hl, Nat.ltb_irrefl. eapply orel_bind; [apply orel_eq|]. intros wins ? <-. rewrite !firstn_all2, !skipn_all2 by lia.
      eapply orel_bind with (R := with_out (fun a b => Forall2 (bq true 1) a b /\ List.length a = List.length u)).
      - assert (X : orel (with_out (Forall2 (bq true 1))) (each (fun o n => let* win := lget wins (o / f_filters f) in simple_output n win) u) (each (fun o n => let* win := lget wins (o / f_filters f) in simple_output n win) v)).
        { apply (each_from_rel2 (bq false 1) (bq true 1)); [exact H|]. intros i a b (Hab & HL). eapply orel_bind; [apply orel_eq|]. intros w ? <-. now apply (simple_output_rel 1 false). }
        destruct (each _ u) as [[o1 n1]| |] eqn:E1, (each (fun o n => let* win := lget wins (o / f_filters f) in simple_output n win) v) as [[o2 n2]| |]; cbn in X |- *; auto. destruct X as (X1 & X2). split; [exact X1|]. split; [exact X2|]. exact (each_len _ _ _ _ E1).
      - intros [o1 n1] [o2 n2] (Eo & Hn & Hc). cbn in Eo, Hn, Hc. subst o2. eapply orel_bind; [apply orel_eq|]. intros ? ? <-. split; [reflexivity|]. cbn [snd]. rewrite !app_nil_r. split; [exact Hn|congruence]. }
    destruct Hk as [-> | ->]; cbn [body_output]; (eapply orel_bind; [exact G|]; intros [o1 n1] [o2 n2] (Eo & Hn & Hc); cbn in Eo, Hn, Hc; subst o2; split; [reflexivity|]; apply br_loc; auto; congruence).
  - assert (G : orel (with_out (prel true)) (pool_output f x) (pool_output g x)).
    { destruct H as (H1 & H2 & H3 & _). destruct f as [f1 f2 f3 f4 f5 f6 f7 f8 f9 f10 f11], g as [g1 g2 g3 g4 g5 g6 g7 g8 g9 g10 g11]. cbn in H1, H2, H3. injection H1 as -> -> -> -> -> -> -> -> -> ->.
      unfold pool_output. cbn [f_maxIndex f_index f_kernels]. rewrite <- H2. destruct (_ <? _); [exact I|]. change (maxIndexOf (mkFilter g1 g2 g3 g4 g5 g6 g7 g8 g9 g10 g11)) with (maxIndexOf (mkFilter g1 g2 g3 g4 g5 g6 g7 g8 g9 g10 f11)).
      destruct (omap (maxIndexOf _ x) g9) as [best| |] eqn:Eb; [|reflexivity|exact I]. assert (Lb := omap_Ok_length _ _ _ Eb). cbn [bind]. eapply orel_bind; [apply orel_eq|]. intros ? ? <-. eapply orel_bind; [apply orel_eq|]. intros ? ? <-.
      assert (Es := skip_eq (List.length g9) f11 g11 best Lb H3). split; [reflexivity|]. cbn [snd]. unfold set_maxIndex. cbn [f_filters f_kernels f_kpf f_npf f_ksize f_nin f_shapeIn f_shapeOut f_index f_outputs f_maxIndex]. rewrite Es. repeat split. }
    destruct Hk as [-> | ->]; cbn [body_output]; (eapply orel_bind; [exact G|]; intros [o1 n1] [o2 n2] (Eo & Hn); cbn in Eo, Hn; subst o2; split; [reflexivity|]; apply br_pool; auto).
Qed.

Lemma conv_back_rows o inputErrors L rows : forall errs i u v, Forall2 (bq true L) u v ->
  orel (fun p q => fst p = fst q /\ Forall2 (bq true L) (snd p) (snd q))
    (ofold (fun s row => let '(errs, i, ns) := s in
      let* (es, ns') := each (fun n neuron => let* e := lget inputErrors (i + n) in simple_backOutput o neuron e) ns in
      let* errs := ofold (scatter false row) es errs in Ok (errs, i + List.length ns, ns')) rows (errs, i, u))
    (ofold (fun s row => let '(errs, i, ns) := s in
      let* (es, ns') := each (fun n neuron => let* e := lget inputErrors (i + n) in simple_backOutput o neuron e) ns in
      let* errs := ofold (scatter false row) es errs in Ok (errs, i + List.length ns, ns')) rows (errs, i, v)).
Proof.
  induction rows as [|r rows IH]; intros errs i u v H; cbn [ofold]; [split; [reflexivity|exact H]|].
  eapply orel_bind with (R := fun p q : list F * nat * list Neuron => fst p = fst q /\ Forall2 (bq true L) (snd p) (snd q)).
  - eapply orel_bind; [apply (each_from_rel2 (bq true L) (bq true L) _ _ u v H)|].
    + intros n a b Hab. eapply orel_bind; [apply orel_eq|]. intros e ? <-. now apply back_rel.
    + intros [e1 n1] [e2 n2] (Ee & Hn). cbn in Ee, Hn. subst e2. eapply orel_bind; [apply orel_eq|]. intros es ? <-. rewrite (Forall2_len _ _ _ H). split; [reflexivity|exact Hn].
  - intros [[e1 i1] n1] [[e2 i2] n2] (Ee & Hn). cbn in Ee, Hn. injection Ee as <- <-. now apply IH.
Qed.
Lemma body_backward o nin a b e : brel true a b -> orel (with_out (brel true)) (body_back o nin a e) (body_back o nin b e).
Proof.
  destruct 1 as [u v H|k f u v Hk Hl H|k f u v Hk Hl H|k f g ns Hk H].
  - cbn [body_back]. eapply orel_bind; [apply (each_from_rel2 (bq true 1) (bq true 1) _ _ u v H)|].
    + intros n a b Hab. eapply orel_bind; [apply orel_eq|]. intros e' ? <-. now apply back_rel.
    + intros [e1 n1] [e2 n2] (Ee & Hn). cbn in Ee, Hn. subst e2. eapply orel_bind; [apply orel_eq|]. intros es ? <-. split; [reflexivity|]. now apply br_full.
  - assert (G : orel (with_out (Forall2 (bq true (List.length (f_index f))))) (conv_back o nin f u e) (conv_back o nin f v e)).
    { unfold conv_back. eapply orel_bind; [exact (conv_back_rows o e _ (f_index f) (repeat fzero nin) 0 u v H)|]. intros [[e1 i1] n1] [[e2 i2] n2] (Ee & Hn). cbn in Ee, Hn. injection Ee as <- <-. split; [reflexivity|exact Hn]. }
    destruct Hk as [-> | ->]; cbn [body_back]; (eapply orel_bind; [exact G|]; intros [o1 n1] [o2 n2] (Eo & Hn); cbn in Eo, Hn; subst o2; split; [reflexivity|]; apply br_conv; auto).
  - assert (G : forall two, orel (with_out (fun p q => Forall2 (bq true 1) p q /\ List.length p = List.length u)) (loc_back two o nin f u e) (loc_back two o nin f v e)).
    { intros two. unfold loc_back. set (h := fun n neuron => let* e := lget e n in let* (err, neuron) := simple_backOutput o neuron e in let divisor := if two then f_filters f else f_kpf f in if divisor =? 0 then UB else let* row := (if List.length err =? 0 then Ok [] else lget (f_index f) (if two then n / f_filters f else n mod f_kpf f)) in Ok ((row, err), neuron)).
      assert (X : orel (with_out (Forall2 (bq true 1))) (each h u) (each h v)).
      { apply (each_from_rel2 (bq true 1) (bq true 1) _ _ u v H). intros n a b Hab. unfold h. eapply orel_bind; [apply orel_eq|]. intros e' ? <-. eapply orel_bind; [apply (back_rel o 1 a b e' Hab)|]. intros [r1 n1] [r2 n2] (Er & Hn). cbn in Er, Hn. subst r2. cbv zeta.
        destruct (_ =? 0); [exact I|]. eapply orel_bind; [apply orel_eq|]. intros row ? <-. split; [reflexivity|exact Hn]. }
      destruct (each h u) as [[e1 n1]| |] eqn:E1, (each h v) as [[e2 n2]| |]; cbn in X; try contradiction; [|subst; reflexivity|exact I]. destruct X as (X1 & X2). cbn in X1, X2. subst e2. cbn [bind]. eapply orel_bind; [apply orel_eq|]. intros es ? <-. split; [reflexivity|]. split; [exact X2|]. exact (each_len _ _ _ _ E1). }
    destruct Hk as [-> | ->]; cbn [body_back]; (eapply orel_bind; [apply G|]; intros [o1 n1] [o2 n2] (Eo & Hn & Hc); cbn in Eo, Hn, Hc; subst o2; split; [reflexivity|]; apply br_loc; auto; congruence).
  - destruct H as (H1 & H2 & H3 & H4). specialize (H4 eq_refl). subst g. assert (P : prel true f f) by (repeat split). destruct Hk as [-> | ->]; cbn [body_back]; (eapply orel_bind; [apply orel_eq|]; intros e' ? <-; split; [reflexivity|]; apply br_pool; auto).
Qed.
Lemma each_trained o L e u v : Forall2 (bq true L) u v -> orel (with_out (fun p q => Forall2 (bq true L) p q /\ List.length p = List.length u)) (each (trained (simple_train o) e) u) (each (trained (simple_train o) e) v).
Proof.
  intros H. assert (X : orel (with_out (Forall2 (bq true L))) (each (trained (simple_train o) e) u) (each (trained (simple_train o) e) v)).
  { apply (each_from_rel2 (bq true L) (bq true L) _ _ u v H). intros n a b Hab. unfold trained. eapply orel_bind; [apply orel_eq|]. intros e' ? <-. eapply orel_bind; [apply (train_rel o L a b e' Hab)|]. intros a' b' H'. now split. }
  destruct (each _ u) as [[e1 n1]| |] eqn:E1, (each (trained (simple_train o) e) v) as [[e2 n2]| |]; cbn in X; try contradiction; [|subst; reflexivity|exact I]. destruct X as (X1 & X2). split; [exact X1|]. split; [exact X2|exact (each_len _ _ _ _ E1)].
Qed.
Lemma body_trains o a b e : brel true a b -> orel (brel true) (body_train o a e) (body_train o b e).
Proof.
  destruct 1 as [u v H|k f u v Hk Hl H|k f u v Hk Hl H|k f g ns Hk H].
  - cbn [body_train]. eapply orel_bind; [exact (each_trained o _ e u v H)|]. intros [e1 n1] [e2 n2] (Ee & Hn & _). now apply br_full.
  - assert (G := each_trained o _ e u v H). destruct Hk as [-> | ->]; cbn [body_train]; (eapply orel_bind; [exact G|]; intros [e1 n1] [e2 n2] (Ee & Hn & _); apply br_conv; auto).
  - assert (G := each_trained o _ e u v H). destruct Hk as [-> | ->]; cbn [body_train]; (eapply orel_bind; [exact G|]; intros [e1 n1] [e2 n2] (Ee & Hn & Hc); cbn in Hn, Hc; apply br_loc; auto; cbn [snd]; congruence).
  - destruct Hk as [-> | ->]; cbn [body_train]; apply br_pool; auto.
Qed.
(* ---------- a prediction ---------- *)
Definition turned (i L : nat) (a b : Neuron) : Prop := nbase a b /\ List.length (q_data (n_last a)) = L /\ List.length (q_data (n_last b)) = L /\ q_get (n_last a) = q_get (n_last b) /\ slot (n_last b) = (slot (n_last a) + i) mod L.
Lemma turned_output i L a b x o b' : turned i L a b -> simple_output b x = Ok (o, b') -> turned (S i) L a b'.
Proof.
  intros ((E1 & E2 & E3 & E4 & E5 & E6 & E7) & LA & LB & G & Sl) H. unfold simple_output in H. destruct (pushBack (n_last b) x) as [lb| |] eqn:Ep; try discriminate. cbn [bind] in H.
  destruct (weighted x (n_w b)) as [t| |]; try discriminate. cbn [bind] in H. destruct (lget (n_w b) _) as [w| |]; try discriminate. cbn [bind] in H. injection H as _ <-.
  apply push_slot in Ep as (A1 & A2 & A3 & A4). split; [repeat split; auto|]. cbn [n_last set_sum]. split; [exact LA|]. split; [now rewrite A1, replace_length|]. split; [congruence|].
  rewrite A4, LB, Sl. rewrite LB in A3. assert (HL : L <> 0) by lia. replace (slot (n_last a) + S i) with ((slot (n_last a) + i) + 1) by lia. set (z := slot (n_last a) + i). rewrite <- (Nat.add_mod_idemp_l z 1 L HL). assert (M := Nat.mod_upper_bound z L HL). set (y := z mod L) in *. clearbody y.
  destruct (Nat.leb_spec L (S y)) as [Hle|Hlt].
  - replace (y + 1) with L by lia. symmetry. now apply Nat.mod_same.
  - rewrite Nat.add_1_r. symmetry. apply Nat.mod_small. lia.
Qed.
Lemma turned_whole L a b : 0 < L -> turned L L a b -> bq false L a b.
Proof.
  intros HL (B & LA & LB & G & Sl). split; [|exact LA]. split; [exact B|]. split; [|discriminate]. split; [congruence|]. split; [exact G|]. split; [|intros; lia].
  rewrite Sl. rewrite <- Nat.add_mod_idemp_r by lia. rewrite Nat.mod_same, Nat.add_0_r by lia. symmetry. apply Nat.mod_small. rewrite <- LA. apply slot_lt. lia.
Qed.
Lemma turned_none L a b : 0 < L -> bq false L a b -> turned 0 L a b.
Proof.
  intros HL ((B & (C1 & C2 & C3 & _) & _) & LA). split; [exact B|]. split; [exact LA|]. split; [congruence|]. split; [exact C2|]. rewrite Nat.add_0_r, <- C3. symmetry. apply Nat.mod_small. rewrite <- LA. apply slot_lt. lia.
Qed.
Lemma each_turned (h : nat -> Neuron -> outcome (F * Neuron)) i L u : (forall k n o n', h k n = Ok (o, n') -> exists x, simple_output n x = Ok (o, n')) ->
  forall v k o v', Forall2 (turned i L) u v -> each_from h k v = Ok (o, v') -> Forall2 (turned (S i) L) u v'.
Proof.
  intros Hh. intros v k o v' H. revert k o v'. induction H as [|a b u v Hab _ IH]; intros k o v' E; cbn [each_from] in E; [injection E as _ <-; constructor|].
  destruct (h k b) as [[o1 b']| |] eqn:E1; try discriminate. cbn [bind] in E. destruct (each_from h (S k) v) as [[o2 v2]| |] eqn:E2; try discriminate. cbn in E. injection E as _ <-.
  destruct (Hh _ _ _ _ E1) as (x & Hx). constructor; [exact (turned_output _ _ _ _ _ _ _ Hab Hx)|]. exact (IH _ _ _ E2).
Qed.
Lemma conv_turned f x L u rows : forall i acc v o v', Forall2 (turned i L) u v ->
  ofold (fun s row => let* win := convWindow f x row in let* (o, ns') := each (fun _ n => simple_output n win) (snd s) in Ok (fst s ++ o, ns')) rows (acc, v) = Ok (o, v') -> Forall2 (turned (i + List.length rows) L) u v'.
Proof.
  induction rows as [|r rows IH]; intros i acc v o v' H E; cbn [ofold] in E; [injection E as _ <-; rewrite Nat.add_0_r; exact H|].
  destruct (convWindow f x r) as [win| |]; try discriminate. cbn [bind fst snd] in E. destruct (each (fun _ n => simple_output n win) v) as [[o1 v1]| |] eqn:E1; try discriminate. cbn [bind] in E.
  replace (i + List.length (r :: rows)) with (S i + List.length rows) by (cbn; lia). apply (IH (S i) (acc ++ o1) v1 o v'); [|exact E]. refine (each_turned _ i L u _ v 0 o1 v1 H E1). intros k n o' n' Hn. eauto.
Qed.
Lemma body_idle a b x t o b' : brel false a b -> body_output b x t = Ok (o, b') -> brel false a b'.
Proof.
  destruct 1 as [u v H|k f u v Hk Hl H|k f u v Hk Hl H|k f g ns Hk H]; intros E.
  - cbn [body_output] in E. destruct (each _ v) as [[o1 v1]| |] eqn:E1; try discriminate. cbn in E. injection E as _ <-. apply br_full.
    eapply F2_imp; [intros p q; apply turned_whole; lia|]. refine (each_turned _ 0 1 u _ v 0 o1 v1 _ E1); [intros; eauto|]. eapply F2_imp; [|exact H]. intros p q; apply turned_none; lia.
  - assert (G : forall v1, conv_output f v x = Ok (o, v1) -> Forall2 (bq false (List.length (f_index f))) u v1).
    { intros v1 E1. unfold conv_output in E1. destruct (ofold _ (f_index f) ([], v)) as [[o2 v2]| |] eqn:E2; try discriminate. cbn [bind] in E1. destruct (fill _ o2) as [o3| |]; try discriminate. cbn in E1. injection E1 as _ <-.
      eapply F2_imp; [intros p q; apply turned_whole; exact Hl|]. refine (conv_turned f x _ u (f_index f) 0 [] v o2 v2 _ E2). eapply F2_imp; [|exact H]. intros p q; apply turned_none; exact Hl. }
    destruct Hk as [-> | ->]; cbn [body_output] in E; destruct (conv_output f v x) as [[o1 v1]| |]; try discriminate; cbn in E; injection E as <- <-; apply br_conv; auto.
  - assert (G : forall v1, loc_output f v x = Ok (o, v1) -> Forall2 (bq false 1) u v1).
    { intros v1 E1. assert (El := Forall2_len _ _ _ H). unfold loc_output in E1. rewrite <- El, Hl, Nat.ltb_irrefl in E1. rewrite firstn_all2, skipn_all2 in E1 by lia. destruct (omap _ (f_index f)) as [wins| |]; try discriminate. cbn [bind] in E1.
      destruct (each _ v) as [[o2 v2]| |] eqn:E2; try discriminate. cbn [bind] in E1. destruct (fill _ o2) as [o3| |]; try discriminate. cbn in E1. injection E1 as _ <-. rewrite app_nil_r.
      eapply F2_imp; [intros p q; apply turned_whole; lia|]. refine (each_turned _ 0 1 u _ v 0 o2 v2 _ E2); [|eapply F2_imp; [|exact H]; intros p q; apply turned_none; lia]. intros i n o' n' Hn. destruct (lget wins _) as [w| |]; try discriminate. cbn [bind] in Hn. eauto. }
    destruct Hk as [-> | ->]; cbn [body_output] in E; destruct (loc_output f v x) as [[o1 v1]| |]; try discriminate; cbn in E; injection E as <- <-; apply br_loc; auto.
  - assert (G : forall g1, pool_output g x = Ok (o, g1) -> prel false f g1).
    { intros g1 E1. destruct H as (H1 & H2 & H3 & _). assert (Hi : f_index f = f_index g) by exact (f_equal f_index H1). unfold pool_output in E1. destruct (Nat.ltb_spec (List.length (f_maxIndex g)) (List.length (f_index g))) as [|Hge]; [discriminate|].
      destruct (omap (maxIndexOf g x) _) as [best| |] eqn:Eb; try discriminate. assert (Lb := omap_Ok_length _ _ _ Eb). cbn [bind] in E1. destruct (omap _ best) as [outs| |]; try discriminate. cbn [bind] in E1. destruct (fill _ outs) as [o3| |]; try discriminate. cbn in E1. injection E1 as _ <-.
      split; [etransitivity; [exact H1|]; reflexivity|]. cbn [f_maxIndex set_maxIndex]. split; [rewrite app_length, skipn_length; lia|]. split; [|discriminate]. rewrite H3. rewrite skipn_app. rewrite Hi, <- Lb, skipn_all, Nat.sub_diag. reflexivity. }
    destruct Hk as [-> | ->]; cbn [body_output] in E; destruct (pool_output g x) as [[o1 g1]| |]; try discriminate; cbn in E; injection E as <- <-; apply br_pool; auto.
Qed.
End P.
