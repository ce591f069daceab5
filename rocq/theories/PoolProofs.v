(* Values computed by the pooling layers. *)
From Verif Require Import Base Num NumOrder ActModel NeuronModel LayerModel NetModel NeuronProofs LayerProofs SafeProofs SafeLayers
  FactoryModel FactorySpec FactoryProofs FilterSpec SafeNet BuildProofs FactoryProps FilterProofs HistProofs.
Local Open Scope nat_scope.

Section P.
Context {N : Num}.
Variable ok : @F N -> Prop.
Hypothesis OL : order_laws N ok.

Lemma not_less_trans a b c : ok a -> ok b -> ok c -> fltb a b = false -> fltb b c = false -> fltb a c = false.
Proof. intros Ha Hb Hc H1 H2. destruct (fltb a c) eqn:E; [|reflexivity]. destruct (ol_cotrans _ _ OL a c b Ha Hc Hb E); congruence. Qed.

(* the selected index attains the maximum of the window *)
Lemma maxIndexOf_max f k x row : List.length row = f_nin f -> Forall (fun i => -1 <= i < Z.of_nat k)%Z row -> List.length x = k -> Forall ok x ->
  (exists i, In i row /\ (0 <= i)%Z) ->
  exists b, maxIndexOf f x row = Ok b /\ In b row /\ (0 <= b < Z.of_nat k)%Z /\
    forall i, In i row -> (0 <= i)%Z -> fltb (nth (Z.to_nat b) x fzero) (nth (Z.to_nat i) x fzero) = false.
Proof.
  intros Hl Hf Hx Hok Hex. unfold maxIndexOf. match goal with |- context [ofold ?f0 _ _] => set (step := f0) end.
  rewrite Forall_forall in Hf. rewrite Forall_forall in Hok.
  assert (Hv : forall i, (0 <= i < Z.of_nat k)%Z -> ok (nth (Z.to_nat i) x fzero)) by (intros i Hi; apply Hok, nth_In; lia).
  assert (G : forall n, n <= f_nin f -> exists b, ofold step (seq 0 n) (-1)%Z = Ok b /\
     ((b = -1)%Z /\ Forall (fun i => (i < 0)%Z) (firstn n row) \/
      In b row /\ (0 <= b < Z.of_nat k)%Z /\ forall i, In i (firstn n row) -> (0 <= i)%Z -> fltb (nth (Z.to_nat b) x fzero) (nth (Z.to_nat i) x fzero) = false)).
  { induction n as [|n IH]; intros Hn; [exists (-1)%Z; cbn; auto|]. destruct IH as (b & E & Hb); [lia|].
    rewrite seq_S, ofold_app, E. cbn [bind ofold plus]. unfold step at 1. rewrite (lget_nth _ _ 0%Z) by lia. cbn [bind].
    rewrite (firstn_snoc _ _ 0%Z) by lia. set (i := nth n row 0%Z). assert (Hi : In i row) by (apply nth_In; lia). pose proof (Hf i Hi) as Hr.
    destruct (Z.leb_spec 0 i).
    - destruct (Z.eqb_spec b (-1)).
      { exists i. cbn. split; [reflexivity|]. right. split; [auto|]. split; [lia|]. intros j Hj H0. apply in_app_iff in Hj as [Hj|[<-|[]]]; [|apply (ol_irrefl _ _ OL); apply Hv; lia].
        exfalso. destruct Hb as [[_ Hb]|[_ [Hb _]]]; [|lia]. rewrite Forall_forall in Hb. specialize (Hb j Hj). lia. }
      destruct Hb as [[? _]|(Hb1 & Hb2 & Hb3)]; [congruence|]. rewrite (lgetZ_ok _ _ fzero) by lia. cbn [bind]. rewrite (lgetZ_ok _ _ fzero) by lia. cbn [bind].
      eexists. split; [reflexivity|]. right. unfold fgeb. rewrite (ol_le _ _ OL) by (apply Hv; lia). destruct (fltb (nth (Z.to_nat i) x fzero) (nth (Z.to_nat b) x fzero)) eqn:Ec; cbn [negb].
      + split; [auto|]. split; [lia|]. intros j Hj H0. apply in_app_iff in Hj as [Hj|[<-|[]]]; [now apply Hb3|].
        destruct (fltb (nth (Z.to_nat b) x fzero) (nth (Z.to_nat i) x fzero)) eqn:Ec2; [|reflexivity]. pose proof (ol_trans _ _ OL _ _ _ (Hv i ltac:(lia)) (Hv b ltac:(lia)) (Hv i ltac:(lia)) Ec Ec2) as Et.
        rewrite (ol_irrefl _ _ OL) in Et by (apply Hv; lia). discriminate.
      + split; [auto|]. split; [lia|]. intros j Hj H0. apply in_app_iff in Hj as [Hj|[<-|[]]]; [|apply (ol_irrefl _ _ OL); apply Hv; lia].
        assert (Hjr : In j row) by (rewrite <- (firstn_skipn n row); apply in_or_app; auto). pose proof (Hf j Hjr).
        eapply (not_less_trans _ (nth (Z.to_nat b) x fzero)); try (apply Hv; lia); auto.
    - exists b. split; [reflexivity|]. destruct Hb as [[-> Hb]|(Hb1 & Hb2 & Hb3)].
      + left. split; [reflexivity|]. apply Forall_app. split; [exact Hb|]. repeat constructor. lia.
      + right. split; [auto|]. split; [lia|]. intros j Hj H0. apply in_app_iff in Hj as [Hj|[<-|[]]]; [auto|lia]. }
  destruct (G (f_nin f) (le_n _)) as (b & E & [[-> Hb]|Hb]).
  - exfalso. destruct Hex as (i & Hi & H0). rewrite firstn_all2 in Hb by lia. rewrite Forall_forall in Hb. specialize (Hb i Hi). lia.
  - rewrite firstn_all2 in Hb by lia. eauto.
Qed.
Lemma omap_Forall2 {A B} (f : A -> outcome B) (P : A -> B -> Prop) l : (forall a, In a l -> exists b, f a = Ok b /\ P a b) -> exists r, omap f l = Ok r /\ Forall2 P l r.
Proof.
  induction l as [|a t IH]; intros H; cbn [omap]; [eauto|]. destruct (H a (or_introl eq_refl)) as (b & -> & Hb). destruct IH as (r & -> & Hr); [intros; apply H; now right|]. cbn [bind]. eauto.
Qed.
Lemma Forall2_nth {A B} (P : A -> B -> Prop) l r : Forall2 P l r -> forall i b, nth_error r i = Some b -> exists a, nth_error l i = Some a /\ P a b.
Proof. induction 1; intros [|i] b0 Hb; try discriminate; [injection Hb as <-; exists x; auto|cbn; eauto]. Qed.

Lemma Forall2_len {A B} (P : A -> B -> Prop) l r : Forall2 P l r -> List.length l = List.length r.
Proof. induction 1; cbn; auto. Qed.

Lemma pool_values k f x m : rowsOK (-1) k (f_nin f) (f_index f) -> Forall (fun row => exists i, In i row /\ (0 <= i)%Z) (f_index f) ->
  m = List.length (f_index f) -> m = List.length (f_maxIndex f) -> f_kernels f = m -> List.length x = k -> Forall ok x ->
  exists best, pool_output f x = Ok (map (fun b => nth (Z.to_nat b) x fzero) best, set_maxIndex f best) /\ List.length best = m /\
    forall p b, nth_error best p = Some b -> exists row, nth_error (f_index f) p = Some row /\ In b row /\ (0 <= b < Z.of_nat k)%Z /\
      forall i, In i row -> (0 <= i)%Z -> fltb (nth (Z.to_nat b) x fzero) (nth (Z.to_nat i) x fzero) = false.
Proof.
  intros HR Hex Hm Hm2 Hk Hx Hok. unfold pool_output. destruct (Nat.ltb_spec (List.length (f_maxIndex f)) (List.length (f_index f))); [lia|].
  destruct (omap_Forall2 (maxIndexOf f x) (fun row b => In b row /\ (0 <= b < Z.of_nat k)%Z /\
      forall i, In i row -> (0 <= i)%Z -> fltb (nth (Z.to_nat b) x fzero) (nth (Z.to_nat i) x fzero) = false) (f_index f)) as (best & E & HB).
  { intros row Hin. destruct (rows_in _ _ _ _ _ HR Hin) as [Hl Hr]. rewrite Forall_forall in Hex. apply (maxIndexOf_max f k x row Hl Hr Hx Hok (Hex row Hin)). }
  pose proof (Forall2_len _ _ _ HB) as L. rewrite E. cbn [bind]. rewrite (omap_all_ok _ (fun b => nth (Z.to_nat b) x fzero)).
  2: { intros b Hb. apply In_nth_error in Hb as (p & Hp). destruct (Forall2_nth _ _ _ HB p b Hp) as (row & _ & _ & Hb & _). apply lgetZ_ok. lia. }
  cbn [bind]. rewrite fill_ok by (rewrite map_length; lia). cbn [bind]. rewrite skipn_all2, app_nil_r by lia. exists best. split; [reflexivity|]. split; [lia|].
  intros p b Hp. destruct (Forall2_nth _ _ _ HB p b Hp) as (row & ? & ? & ? & ?). eauto 6.
Qed.
(* the backward pass writes each error at the selected index; distinct windows select distinct indexes *)
Lemma pool_back_values k f e : NoDup (f_maxIndex f) -> List.length e = List.length (f_maxIndex f) -> Forall (fun i => 0 <= i < Z.of_nat k)%Z (f_maxIndex f) ->
  exists r, pool_back k f e = Ok r /\ List.length r = k /\
    (forall p b, nth_error (f_maxIndex f) p = Some b -> nth (Z.to_nat b) r fzero = nth p e fzero) /\
    (forall i, i < k -> ~ In (Z.of_nat i) (f_maxIndex f) -> nth i r fzero = fzero).
Proof.
  intros ND He HB. unfold pool_back. match goal with |- context [ofold ?f0 _ _] => set (step := f0) end.
  assert (G : forall n, n <= List.length e -> exists r, ofold step (seq 0 n) (repeat fzero k) = Ok r /\ List.length r = k /\
    (forall p b, p < n -> nth_error (f_maxIndex f) p = Some b -> nth (Z.to_nat b) r fzero = nth p e fzero) /\
    (forall i, i < k -> ~ In (Z.of_nat i) (firstn n (f_maxIndex f)) -> nth i r fzero = fzero)).
  { induction n as [|n IH]; intros Hn.
    - exists (repeat fzero k). cbn. split; [reflexivity|]. split; [apply repeat_length|]. split; [intros; lia|]. intros i Hi _. apply nth_repeat.
    - destruct IH as (r & E & L & H1 & H2); [lia|]. rewrite seq_S, ofold_app, E. cbn [bind ofold plus]. unfold step at 1. rewrite (lget_nth _ _ 0%Z) by lia. cbn [bind]. rewrite (lget_nth _ _ fzero) by lia. cbn [bind].
      set (b := nth n (f_maxIndex f) 0%Z). assert (Hb : nth_error (f_maxIndex f) n = Some b) by (apply nth_error_nth'; lia).
      assert (Hr : (0 <= b < Z.of_nat k)%Z) by (rewrite Forall_forall in HB; apply HB; eapply nth_error_In; eauto).
      rewrite lsetZ_ok by lia. cbn [bind]. eexists. split; [reflexivity|]. rewrite replace_length. split; [exact L|]. split.
      + intros p b' Hp Hb'. rewrite nth_replace. destruct (Nat.ltb_spec (Z.to_nat b) (List.length r)); [|lia]. destruct (Nat.eq_dec p n) as [->|Hne].
        * rewrite Hb in Hb'. injection Hb' as <-. now rewrite Nat.eqb_refl.
        * assert (b' <> b). { intros ->. apply Hne. eapply (proj1 (NoDup_nth_error _) ND); [|congruence]. apply nth_error_Some. congruence. }
          assert (Hr' : (0 <= b' < Z.of_nat k)%Z) by (rewrite Forall_forall in HB; apply HB; eapply nth_error_In; eauto).
          destruct (Nat.eqb_spec (Z.to_nat b') (Z.to_nat b)); [lia|]. apply H1; [lia|exact Hb'].
      + intros i Hi Hni. rewrite (firstn_snoc _ _ 0%Z) in Hni by lia. fold b in Hni. rewrite nth_replace. destruct (Nat.eqb_spec i (Z.to_nat b)).
        * exfalso. apply Hni. apply in_or_app. right. left. lia.
        * apply H2; [exact Hi|]. intros Hin. apply Hni. apply in_or_app. now left. }
  destruct (G (List.length e) (le_n _)) as (r & E & L & H1 & H2). exists r. split; [exact E|]. split; [exact L|]. split.
  - intros p b Hb. apply H1; [|exact Hb]. assert (p < List.length (f_maxIndex f)) by (apply nth_error_Some; congruence). lia.
  - intros i Hi Hni. apply H2; [exact Hi|]. rewrite firstn_all2 by lia. exact Hni.
Qed.
End P.

Section Q.
Context {N : Num}.
Lemma pool_state masks i d l kd f m h : same_layer (finish masks i d (BFilter kd f [])) l -> wf_layer m l h -> match kd with Pool1D | Pool2D => True | _ => False end ->
  exists mi, l_body l = BFilter kd (set_maxIndex f mi) [] /\ h = List.length (f_index f) /\ h = List.length mi /\ l_in l = m /\ h = f_kernels f.
Proof.
  intros (Hi & SK & _) W Hk. cbn [finish l_body] in SK. destruct W as (Hin & _ & _ & WB & _).
  destruct (l_body l) as [| | |kd' f' ns]; try (destruct SK as [_ SK]; contradiction). destruct SK as (L & -> & Ef). rewrite Ef in *.
  destruct WB as (H0 & WB). exists (f_maxIndex f'). destruct kd; try contradiction; cbn [wf_filter f_index f_maxIndex set_maxIndex] in WB; destruct WB as (_ & _ & E1 & E2 & _ & ->);
    (split; [reflexivity|]); (split; [exact E1|]); (split; [exact E2|]); (split; [exact Hin|exact H0]).
Qed.
End Q.
