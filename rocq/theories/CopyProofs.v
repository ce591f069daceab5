(* Networks in memory behave as values. *)
From Coq Require Import String.
From Verif Require Import Base Num ActModel NeuronModel LayerModel NetModel StatModel WaitModel DataModel FactoryModel TrainModel SaveModel SaveSpec CopyModel CopySpec PureSpec HistProofs TrainLater.
Local Open Scope outcome_scope.

Section P.
Context {N : Num}.
Implicit Types (h : Heap) (p q : PSnn).
Definition agree h h' (ls : list addr) (o : addr) : Prop := (forall a, In a ls -> h_layer h' a = h_layer h a) /\ h_opt h' o = h_opt h o.
Lemma fetchLayers_agree h h' o ls : (forall a, In a ls -> h_layer h' a = h_layer h a) -> fetchLayers h' o ls = fetchLayers h o ls.
Proof. induction ls as [|a ls IH]; intros H; cbn; [reflexivity|]. rewrite (H a (or_introl eq_refl)), IH; [reflexivity|]. intros b Hb. apply H. now right. Qed.
Lemma fetch_agree h h' p : agree h h' (p_layers p) (p_opt p) -> fetch h' p = fetch h p.
Proof. intros (H1 & H2). unfold fetch. now rewrite H2, (fetchLayers_agree _ _ _ _ H1). Qed.
Lemma set_same {A} (m : addr -> option A) a v : set m a v a = v. Proof. unfold set. now rewrite Nat.eqb_refl. Qed.
Lemma set_other {A} (m : addr -> option A) a v b : b <> a -> set m a v b = m b. Proof. intros H. unfold set. now apply Nat.eqb_neq in H as ->. Qed.
Lemma map_fst {A B} (f : A -> B) (l : list A) : map fst (map (fun x => (x, f x)) l) = l.
Proof. rewrite map_map. cbn. apply map_id. Qed.
Lemma strip_link a o l : strip (link a o l) = l.
Proof. destruct l as [i b os]. unfold strip, link. cbn. rewrite map_map. cbn. rewrite map_id. destruct b; cbn; rewrite map_map; cbn; now rewrite map_id. Qed.
Lemma forallb_map_true {A B} (f : A -> B) (g : B -> bool) l : (forall x, g (f x) = true) -> forallb g (map f l) = true.
Proof. intros H. induction l; cbn; [reflexivity|]. now rewrite H. Qed.
Lemma linked_link a o l : linked a o (link a o l) = true.
Proof.
  destruct l as [i b os]. unfold linked, link. cbn. rewrite (forallb_map_true (fun x => (x, a))); [|intros; apply Nat.eqb_refl]. rewrite andb_true_r.
  destruct b as [ns|ns|ns|k f ns]; try destruct k; try reflexivity; apply forallb_map_true; intros; cbn; now rewrite !Nat.eqb_refl.
Qed.
Lemma distinct_NoDup l : distinct l = true <-> NoDup l.
Proof.
  induction l as [|a l IH]; cbn; [split; [constructor|reflexivity]|]. rewrite andb_true_iff, negb_true_iff, IH. split.
  - intros (H & Hn). constructor; [|exact Hn]. intros Hi. assert (existsb (Nat.eqb a) l = true) by (apply existsb_exists; exists a; split; [exact Hi|apply Nat.eqb_refl]). congruence.
  - intros H. inversion H; subst. split; [|assumption]. destruct (existsb (Nat.eqb a) l) eqn:E; [|reflexivity]. apply existsb_exists in E as (b & Hb & E). apply Nat.eqb_eq in E. now subst.
Qed.

(* ---- building ---- *)
Lemma place_spec o ls : forall h r h', place h o ls = (r, h') -> h_opt h' = h_opt h /\ h_next h <= h_next h' /\ (forall a, a < h_next h -> h_layer h' a = h_layer h a) /\
  (forall a, In a r -> h_next h <= a < h_next h') /\ NoDup r /\ fetchLayers h' o r = Some ls.
Proof.
  induction ls as [|l ls IH]; intros h r h' H; cbn [place newLayer] in H.
  - injection H as <- <-. repeat split; auto; try contradiction. constructor.
  - destruct (place _ o ls) as (r1 & h1) eqn:E. injection H as <- <-. apply IH in E as (E1 & E2 & E3 & E4 & E5 & E6). cbn in E1, E2, E3, E4.
    split; [exact E1|]. split; [lia|]. split; [intros a Ha; rewrite E3 by lia; apply set_other; lia|]. split; [intros a [<-|Ha]; [lia|specialize (E4 _ Ha); lia]|].
    split; [constructor; [intros Hi; specialize (E4 _ Hi); lia|exact E5]|]. cbn [fetchLayers]. rewrite E3 by lia. rewrite set_same, E6, linked_link, strip_link. reflexivity.
Qed.
Definition fresh h h' q : Prop := h_next h <= h_next h' /\ (forall a, a < h_next h -> h_layer h' a = h_layer h a /\ h_opt h' a = h_opt h a) /\
  (forall a, In a (p_layers q) -> h_next h <= a < h_next h') /\ h_next h <= p_opt q < h_next h'.
Lemma build_spec h s q h' : build h s = (q, h') -> fetch h' q = Some s /\ fresh h h' q.
Proof.
  unfold build, newOpt. destruct (place _ _ _) as (r & h1) eqn:E. intros H. injection H as <- <-. apply place_spec in E as (E1 & E2 & E3 & E4 & E5 & E6). cbn in E1, E2, E3, E4.
  split.
  - unfold fetch. cbn. rewrite E1, set_same, E6. apply distinct_NoDup in E5. rewrite E5. now destruct s as [[? ? ? ?] ? ? ? ? ? ? ? ?].
  - split; [lia|]. cbn. split; [|split; [intros a Ha; specialize (E4 _ Ha); lia|lia]]. intros a Ha. rewrite E3 by lia. split; [reflexivity|]. rewrite E1. apply set_other. lia.
Qed.

(* ---- copying ---- *)
Definition fetch1 h o a := match h_layer h a with Some l => if linked a o l then Some (strip l) else None | None => None end.
Lemma fetchLayers_cons h o a ls : fetchLayers h o (a :: ls) = match fetch1 h o a, fetchLayers h o ls with Some l, Some r => Some (l :: r) | _, _ => None end.
Proof. cbn. unfold fetch1. destruct (h_layer h a); [|reflexivity]. destruct (fetchLayers h o ls); destruct (linked _ _ _); reflexivity. Qed.
Lemma cloned_strip l this o : strip (mkPL (pl_in l) (setOptimizer o (pl_body l)) (map (fun x => (fst x, this)) (pl_opts l))) = strip l.
Proof. destruct l as [i b os]. unfold strip. cbn. f_equal; [|rewrite map_map; reflexivity]. destruct b as [ns|ns|ns|k f ns]; cbn; try destruct k; try reflexivity; f_equal; rewrite map_map; reflexivity. Qed.
Lemma cloned_linked l this o : linked this o (mkPL (pl_in l) (setOptimizer o (pl_body l)) (map (fun x => (fst x, this)) (pl_opts l))) = true.
Proof.
  unfold linked. cbn. rewrite (forallb_map_true (fun x : LOpt * addr => (fst x, this))); [|intros; apply Nat.eqb_refl]. rewrite andb_true_r.
  destruct (pl_body l) as [ns|ns|ns|k f ns]; cbn; try destruct k; try reflexivity; apply forallb_map_true; intros; cbn; now rewrite !Nat.eqb_refl.
Qed.
Lemma cloneLayers_spec o o0 ls : forall h vs, fetchLayers h o0 ls = Some vs -> (forall a, In a ls -> a < h_next h) -> exists r h', cloneLayers h o ls = Ok (r, h') /\
  h_opt h' = h_opt h /\ h_next h <= h_next h' /\ (forall a, a < h_next h -> h_layer h' a = h_layer h a) /\
  (forall a, In a r -> h_next h <= a < h_next h') /\ NoDup r /\ fetchLayers h' o r = Some vs.
Proof.
  induction ls as [|a ls IH]; intros h vs H Hb; cbn [cloneLayers].
  - injection H as <-. eexists [], h. repeat split; auto; try contradiction. constructor.
  - rewrite fetchLayers_cons in H. unfold fetch1 in H. destruct (h_layer h a) as [l|] eqn:El; [|discriminate]. destruct (linked a o0 l); [|discriminate]. destruct (fetchLayers h o0 ls) as [ws|] eqn:Er; [|discriminate].
    injection H as <-. unfold clone, newLayer. cbn [copyLayer pl_in pl_body pl_opts]. set (c := mkPL _ _ _). set (h1 := mkHeap _ _ _).
    assert (Er1 : fetchLayers h1 o0 ls = Some ws).
    { rewrite <- Er. apply fetchLayers_agree. intros b Hbb. cbn. apply set_other. specialize (Hb b (or_intror Hbb)). lia. }
    destruct (IH h1 ws Er1) as (r & h' & E & E1 & E2 & E3 & E4 & E5 & E6). { intros b Hbb. cbn. specialize (Hb b (or_intror Hbb)). lia. }
    cbn in E1, E2, E3, E4. rewrite E. cbn [bind]. eexists _, _. split; [reflexivity|]. split; [exact E1|]. split; [lia|].
    split; [intros b Hbb; rewrite E3 by lia; apply set_other; lia|]. split; [intros b [<-|Hbb]; [lia|specialize (E4 _ Hbb); lia]|].
    split; [constructor; [intros Hi; specialize (E4 _ Hi); lia|exact E5]|]. rewrite fetchLayers_cons. unfold fetch1. rewrite E3 by lia. rewrite set_same. unfold c. rewrite cloned_linked, cloned_strip, E6. reflexivity.
Qed.
Lemma fetchLayers_last h o r vs : fetchLayers h o r = Some vs -> match rev r, rev vs with a :: _, v :: _ => exists l, h_layer h a = Some l /\ strip l = v | [], [] => True | _, _ => False end.
Proof.
  revert vs. induction r as [|a r IH]; intros vs H; [injection H as <-; exact I|]. rewrite fetchLayers_cons in H. unfold fetch1 in H. destruct (h_layer h a) as [l|] eqn:El; [|discriminate].
  destruct (linked a o l); [|discriminate]. destruct (fetchLayers h o r) as [ws|]; [|discriminate]. injection H as <-. cbn [rev]. specialize (IH ws eq_refl).
  destruct (rev r) as [|b t], (rev ws) as [|v u]; try contradiction; cbn; [eauto|exact IH].
Qed.
Lemma strip_neurons l : getNumberOfNeurons (strip l) = pl_neurons l.
Proof. destruct l as [i b os]. unfold getNumberOfNeurons, pl_neurons, strip. destruct b; cbn; rewrite ?map_length; reflexivity. Qed.
Lemma initializeStats_spec st n : initializeStats st n = mkStats (repeat zeroCluster n) fzero fzero (st_rate st) (st_wrate st) (st_f1 st) (st_mae st) (st_rmse st) (st_rateMax st) (st_wrateMax st) (st_f1Max st)
           (st_maeMin st) (st_rmseMin st) (st_rateBetter st) (st_wrateBetter st) (st_f1Better st) (st_maeBetter st) (st_rmseBetter st).
Proof.
  unfold initializeStats, startTesting, with_counters. cbn. f_equal.
  set (l := firstn n _). assert (E : List.length l = n). { unfold l. rewrite firstn_length, app_length, repeat_length. lia. }
  rewrite <- E. clear. induction l; cbn; [reflexivity|]. now f_equal.
Qed.
Lemma outputs_last n : net_numberOfOutputs n = match rev (nn_layers n) with [] => UB | l :: _ => Ok (getNumberOfNeurons l) end.
Proof.
  unfold net_numberOfOutputs, lgetZ. destruct (nn_layers n) as [|a t] eqn:E using rev_ind.
  - reflexivity.
  - rewrite rev_app_distr. cbn [rev app]. rewrite app_length. cbn [List.length]. replace (Z.of_nat (List.length t + 1) - 1)%Z with (Z.of_nat (List.length t)) by lia.
    destruct (Z.ltb_spec (Z.of_nat (List.length t)) 0); [lia|]. rewrite Nat2Z.id. unfold lget. rewrite nth_error_app2, Nat.sub_diag by lia. reflexivity.
Qed.
Lemma copy_spec h p s : fetch h p = Some s -> (forall a, In a (p_layers p) -> a < h_next h) -> p_opt p < h_next h ->
  match copyP h p, copySnn s with Ok (q, h'), Ok s' => fetch h' q = Some s' /\ fresh h h' q | UB, UB => True | _, _ => False end.
Proof.
  unfold fetch, copyP, copySnn. intros H Hb Ho. destruct (h_opt h (p_opt p)) as [v|] eqn:Ev; [|discriminate]. destruct (fetchLayers h (p_opt p) (p_layers p)) as [ls|] eqn:El; [|discriminate].
  destruct (distinct (p_layers p)); [|discriminate]. injection H as <-. cbn [newOpt sn_net].
  set (h1 := mkHeap _ _ _). assert (El1 : fetchLayers h1 (p_opt p) (p_layers p) = Some ls) by (rewrite <- El; now apply fetchLayers_agree).
  destruct (cloneLayers_spec (h_next h) (p_opt p) (p_layers p) h1 ls El1) as (r & h' & E & E1 & E2 & E3 & E4 & E5 & E6). { intros a Ha. cbn. specialize (Hb _ Ha). lia. }
  cbn in E1, E2, E3, E4. rewrite E. cbn [bind]. rewrite outputs_last. cbn [nn_layers]. pose proof (fetchLayers_last _ _ _ _ E6) as HL.
  destruct (rev r) as [|a t], (rev ls) as [|w u]; try contradiction; cbn [bind]; [exact I|]. destruct HL as (l & E7 & E8). rewrite E7. cbn [sn_stats sn_net sn_index sn_epoch sn_ntrain sn_auto sn_path].
  split.
  - cbn. rewrite E1, set_same, E6. apply distinct_NoDup in E5. rewrite E5, initializeStats_spec. rewrite <- E8, strip_neurons. reflexivity.
  - split; [lia|]. cbn. split; [|split; [intros b Hbb; specialize (E4 _ Hbb); lia|lia]]. intros b Hbb. rewrite E3 by lia. split; [reflexivity|]. rewrite E1. apply set_other. lia.
Qed.

(* ---- writing ---- *)
Lemma storeLayers_spec o ls : forall h vs, NoDup ls -> List.length vs = List.length ls ->
  h_opt (storeLayers h o ls vs) = h_opt h /\ h_next (storeLayers h o ls vs) = h_next h /\ (forall a, ~ In a ls -> h_layer (storeLayers h o ls vs) a = h_layer h a) /\ fetchLayers (storeLayers h o ls vs) o ls = Some vs.
Proof.
  induction ls as [|a ls IH]; intros h [|v vs] Hn Hl; try discriminate; cbn [storeLayers]; [auto|]. inversion Hn as [|? ? Ha Hn']; subst. injection Hl as Hl.
  set (h1 := mkHeap _ _ _). destruct (IH h1 vs Hn' Hl) as (E1 & E2 & E3 & E4). split; [exact E1|]. split; [exact E2|]. split.
  - intros b Hb. rewrite E3 by (intros Hi; apply Hb; now right). cbn. apply set_other. intros ->. apply Hb. now left.
  - rewrite fetchLayers_cons. unfold fetch1. rewrite (E3 a Ha). cbn [h_layer h1]. rewrite set_same, linked_link, strip_link, E4. reflexivity.
Qed.
Lemma fetch_inv h p s : fetch h p = Some s -> h_opt h (p_opt p) = Some (nn_opt (sn_net s)) /\ NoDup (p_layers p) /\ List.length (nn_layers (sn_net s)) = List.length (p_layers p).
Proof.
  unfold fetch. destruct (h_opt h (p_opt p)) as [v|]; [|discriminate]. destruct (fetchLayers h (p_opt p) (p_layers p)) as [ls|] eqn:El; [|discriminate]. destruct (distinct _) eqn:Ed; [|discriminate].
  intros H. injection H as <-. cbn. split; [reflexivity|]. split; [now apply distinct_NoDup|]. clear Ed. revert ls El. induction (p_layers p) as [|a l IH]; intros ls El; [injection El as <-; reflexivity|].
  rewrite fetchLayers_cons in El. destruct (fetch1 _ _ _); [|discriminate]. destruct (fetchLayers _ _ l); [|discriminate]. injection El as <-. cbn. f_equal. now apply IH.
Qed.
Lemma act_frame s a x s' : act s a = Ok (x, Some s') -> frame (sn_net s) (sn_net s').
Proof.
  destruct a as [i reset|fuel env w b f d]; cbn [act]; intros H.
  - apply bind_Ok_inv in H as ((o & s1) & E & H). injection H as <- <-. unfold computeOutput in E. apply bind_Ok_inv in E as ((o1 & n1) & E & H). injection H as <- <-. exact (output_frame _ _ _ _ _ E).
  - destruct (train fuel env w b f s d) as [[r|m|]|] eqn:E; try discriminate. injection H as <- <-. apply later_frame. exact (train_later _ _ _ _ _ _ _ _ E).
Qed.
Lemma store_spec h p s s' q h' : fetch h p = Some s -> frame (sn_net s) (sn_net s') -> store h p s' = (q, h') ->
  fetch h' q = Some s' /\ p_layers q = p_layers p /\ p_opt q = p_opt p /\ h_opt h' = h_opt h /\ h_next h' = h_next h /\ forall a, ~ In a (p_layers p) -> h_layer h' a = h_layer h a.
Proof.
  intros Hf (F1 & F2) H. unfold store in H. injection H as <- <-. apply fetch_inv in Hf as (E1 & E2 & E3). destruct (storeLayers_spec (p_opt p) (p_layers p) h (nn_layers (sn_net s')) E2 ltac:(congruence)) as (G1 & G2 & G3 & G4).
  split; [|auto 10]. unfold fetch. cbn. rewrite G1, E1, G4. apply distinct_NoDup in E2. rewrite E2, <- F2. now destruct s' as [[? ? ? ?] ? ? ? ? ? ? ? ?].
Qed.
Lemma free_layers ls m (a : addr) : ~ In a ls -> fold_right (fun a (m : addr -> option PLayer) => set m a None) m ls a = m a.
Proof. induction ls as [|b ls IH]; intros H; cbn; [reflexivity|]. rewrite set_other by (intros ->; apply H; now left). apply IH. intros Hi. apply H. now right. Qed.

(* ---- the two worlds ---- *)
Record same (W : World) (v : Values) : Prop := {
  sm_values : map (option_map (fun p => fetch (snd W) p)) (fst W) = map (option_map Some) v;
  sm_below : forall i p, nth_error (fst W) i = Some (Some p) -> (forall a, In a (p_layers p) -> a < h_next (snd W)) /\ p_opt p < h_next (snd W);
  sm_apart : forall i j p q, i <> j -> nth_error (fst W) i = Some (Some p) -> nth_error (fst W) j = Some (Some q) -> (forall a, In a (p_layers p) -> ~ In a (p_layers q)) /\ p_opt p <> p_opt q }.
Lemma same_nth W v i : same W v ->
  match nth_error (fst W) i, nth_error v i with Some (Some p), Some (Some s) => fetch (snd W) p = Some s | Some None, Some None => True | None, None => True | _, _ => False end.
Proof.
  intros [H _ _]. pose proof (f_equal (fun l => nth_error l i) H) as E. cbn in E. rewrite !nth_error_map in E.
  destruct (nth_error (fst W) i) as [[p|]|], (nth_error v i) as [[s|]|]; cbn in E; try discriminate; auto. now injection E.
Qed.
Lemma nth_ext {A} (l l' : list A) : (forall i, nth_error l i = nth_error l' i) -> l = l'.
Proof.
  revert l'. induction l as [|a l IH]; intros [|b l'] H; [reflexivity|specialize (H 0); discriminate|specialize (H 0); discriminate|].
  f_equal; [specialize (H 0); now injection H|]. apply IH. intros i. exact (H (S i)).
Qed.
Lemma same_intro W v : (forall i, match nth_error (fst W) i, nth_error v i with Some (Some p), Some (Some s) => fetch (snd W) p = Some s | Some None, Some None => True | None, None => True | _, _ => False end) ->
  map (option_map (fun p => fetch (snd W) p)) (fst W) = map (option_map Some) v.
Proof.
  intros H. apply nth_ext. intros i. rewrite !nth_error_map. specialize (H i). destruct (nth_error (fst W) i) as [[p|]|], (nth_error v i) as [[s|]|]; cbn; try contradiction; try reflexivity. now rewrite H.
Qed.
Lemma same_length W v : same W v -> List.length (fst W) = List.length v.
Proof. intros [H _ _]. apply (f_equal (@List.length _)) in H. now rewrite !map_length in H. Qed.
Lemma nth_snoc {A} (l : list A) a i : nth_error (l ++ [a]) i = if i <? List.length l then nth_error l i else if i =? List.length l then Some a else None.
Proof.
  destruct (Nat.ltb_spec i (List.length l)); [now apply nth_error_app1|]. rewrite nth_error_app2 by lia. destruct (Nat.eqb_spec i (List.length l)) as [->|]; [now rewrite Nat.sub_diag|].
  destruct (i - List.length l) as [|[|k]] eqn:E; [lia|reflexivity|reflexivity].
Qed.
Lemma nth_setAt {A} (l : list A) v : forall i j, nth_error (setAt l i v) j = if j =? i then match nth_error l i with Some _ => Some v | None => None end else nth_error l j.
Proof.
  induction l as [|a l IH]; intros [|i] [|j]; cbn; try reflexivity; [now destruct (j =? i)|]. rewrite IH. reflexivity.
Qed.
Lemma nth_some {A} (l : list A) i a : nth_error l i = Some a -> i < List.length l. Proof. intros H. apply nth_error_Some. congruence. Qed.

Lemma same_made w h v q h' s : same (w, h) v -> fetch h' q = Some s -> fresh h h' q -> same (w ++ [Some q], h') (v ++ [Some s]).
Proof.
  intros HS Hq (F1 & F2 & F3 & F4). pose proof (same_length _ _ HS) as HL. cbn in HL. destruct HS as [H1 H2 H3] eqn:EHS. cbn [fst snd] in *.
  assert (HA : forall i p, nth_error w i = Some (Some p) -> fetch h' p = fetch h p).
  { intros i p Hi. destruct (H2 _ _ Hi) as (B1 & B2). apply fetch_agree. split; [intros a Ha; apply F2; now apply B1|now apply F2]. }
  split; cbn [fst snd].
  - apply (same_intro (w ++ [Some q], h') (v ++ [Some s])). intros i. cbn [fst snd]. rewrite !nth_snoc, <- HL. destruct (i <? List.length w) eqn:El.
    + pose proof (same_nth _ _ i HS) as K. cbn [fst snd] in K. destruct (nth_error w i) as [[p|]|] eqn:Ew, (nth_error v i) as [[x|]|]; auto. rewrite <- K. exact (HA _ _ Ew).
    + destruct (i =? List.length w); auto.
  - intros i p. rewrite nth_snoc. destruct (i <? _); [|destruct (i =? _); [|discriminate]].
    + intros Hi. destruct (H2 _ _ Hi) as (B1 & B2). split; [intros a Ha; specialize (B1 _ Ha); lia|lia].
    + intros E. injection E as <-. split; [intros a Ha; now apply F3|lia].
  - intros i j p r Hij. rewrite !nth_snoc. destruct (Nat.ltb_spec i (List.length w)), (Nat.ltb_spec j (List.length w)).
    + apply H3; assumption.
    + destruct (Nat.eqb_spec j (List.length w)); [|discriminate]. intros Hi E. injection E as <-. destruct (H2 _ _ Hi) as (B1 & B2). split; [intros a Ha Hc; specialize (B1 _ Ha); specialize (F3 _ Hc); lia|lia].
    + destruct (Nat.eqb_spec i (List.length w)); [|discriminate]. intros E Hj. injection E as <-. destruct (H2 _ _ Hj) as (B1 & B2). split; [intros a Ha Hc; specialize (B1 _ Hc); specialize (F3 _ Ha); lia|lia].
    + destruct (Nat.eqb_spec i (List.length w)), (Nat.eqb_spec j (List.length w)); try discriminate. lia.
Qed.
Lemma same_used w h v i p q h' s : same (w, h) v -> nth_error w i = Some (Some p) -> fetch h' q = Some s -> p_layers q = p_layers p -> p_opt q = p_opt p -> h_opt h' = h_opt h -> h_next h' = h_next h ->
  (forall a, ~ In a (p_layers p) -> h_layer h' a = h_layer h a) -> same (setAt w i (Some q), h') (setAt v i (Some s)).
Proof.
  intros HS Hi Hq El Eo E1 E2 E3. pose proof (same_nth _ _ i HS) as Ki. cbn [fst snd] in Ki. rewrite Hi in Ki. destruct (nth_error v i) as [[s0|]|] eqn:Ev; try contradiction. destruct HS as [H1 H2 H3] eqn:EHS. cbn [fst snd] in *. split; cbn [fst snd].
  - apply (same_intro (setAt w i (Some q), h') (setAt v i (Some s))). intros j. cbn [fst snd]. rewrite !nth_setAt, Hi, Ev. destruct (Nat.eqb_spec j i); [exact Hq|].
    pose proof (same_nth _ _ j HS) as K. cbn [fst snd] in K. destruct (nth_error w j) as [[r|]|] eqn:Ew, (nth_error v j) as [[x|]|]; auto. rewrite <- K. apply fetch_agree.
    split; [|now rewrite E1]. intros a Ha. apply E3. intros Hc. destruct (H3 _ _ _ _ n Ew Hi) as (D & _). exact (D _ Ha Hc).
  - intros j r. rewrite nth_setAt, Hi. destruct (j =? i); [|rewrite E2; apply H2]. intros E. injection E as <-. rewrite El, Eo, E2. exact (H2 _ _ Hi).
  - intros j k a b Hjk. rewrite !nth_setAt, Hi. destruct (Nat.eqb_spec j i), (Nat.eqb_spec k i); try lia; intros Ea Eb.
    + injection Ea as <-. rewrite El, Eo. subst j. exact (H3 _ _ _ _ Hjk Hi Eb).
    + injection Eb as <-. rewrite El, Eo. subst k. exact (H3 _ _ _ _ Hjk Ea Hi).
    + exact (H3 _ _ _ _ Hjk Ea Eb).
Qed.
Lemma same_freed w h v i p : same (w, h) v -> nth_error w i = Some (Some p) -> same (setAt w i None, free h p) (setAt v i None).
Proof.
  intros HS Hi. pose proof (same_nth _ _ i HS) as Ki. cbn [fst snd] in Ki. rewrite Hi in Ki. destruct (nth_error v i) as [[s0|]|] eqn:Ev; try contradiction. destruct HS as [H1 H2 H3] eqn:EHS. cbn [fst snd] in *. split; cbn [fst snd].
  - apply (same_intro (setAt w i None, free h p) (setAt v i None)). intros j. cbn [fst snd]. rewrite !nth_setAt, Hi, Ev. destruct (Nat.eqb_spec j i); [exact I|].
    pose proof (same_nth _ _ j HS) as K. cbn [fst snd] in K. destruct (nth_error w j) as [[r|]|] eqn:Ew, (nth_error v j) as [[x|]|]; auto. rewrite <- K. apply fetch_agree.
    destruct (H3 _ _ _ _ n Ew Hi) as (D1 & D2). split; cbn.
    + intros a Ha. apply free_layers. exact (D1 _ Ha).
    + now apply set_other.
  - intros j r. rewrite nth_setAt, Hi. destruct (j =? i); [discriminate|]. apply H2.
  - intros j k a b Hjk. rewrite !nth_setAt, Hi. destruct (Nat.eqb_spec j i), (Nat.eqb_spec k i); try lia; intros Ea Eb; try discriminate. exact (H3 _ _ _ _ Hjk Ea Eb).
Qed.

Definition same_result (x : outcome (said * option World)) (y : outcome (said * option Values)) : Prop :=
  match x, y with
  | Ok (a, Some W), Ok (b, Some v) => a = b /\ same W v
  | Ok (a, None), Ok (b, None) => a = b
  | Throw m, Throw m' => m = m' | UB, UB => True | _, _ => False
  end.
Lemma step_same c W v : same W v -> same_result (pstep c W) (vstep c v).
Proof.
  destruct W as (w, h). intros HS. destruct c as [draws masks ds lr m|file|i|i a|i]; cbn [pstep vstep].
  - destruct (newSnn draws masks ds lr m) as [s|x|]; cbn [bind]; try reflexivity. destruct (build h s) as (q & h') eqn:E. apply build_spec in E as (E1 & E2). split; [reflexivity|]. exact (same_made _ _ _ _ _ _ HS E1 E2).
  - destruct (loadFrom file) as [s|x|]; cbn [bind]; try reflexivity. destruct (build h s) as (q & h') eqn:E. apply build_spec in E as (E1 & E2). split; [reflexivity|]. exact (same_made _ _ _ _ _ _ HS E1 E2).
  - pose proof (same_nth _ _ i HS) as K. cbn [fst snd] in K. destruct (nth_error w i) as [[p|]|] eqn:Ew, (nth_error v i) as [[s|]|] eqn:Ev; try contradiction; try exact I.
    destruct (sm_below _ _ HS _ _ Ew) as (B1 & B2). pose proof (copy_spec h p s K B1 B2) as HC. destruct (copyP h p) as [(q & h')|x|], (copySnn s) as [s'|y|]; try contradiction; [|exact I].
    destruct HC as (E1 & E2). split; [reflexivity|]. exact (same_made _ _ _ _ _ _ HS E1 E2).
  - pose proof (same_nth _ _ i HS) as K. cbn [fst snd] in K. destruct (nth_error w i) as [[p|]|] eqn:Ew, (nth_error v i) as [[s|]|] eqn:Ev; try contradiction; try exact I.
    rewrite K. destruct (act s a) as [(x & [s'|])|y|] eqn:Ea; cbn [bind]; try reflexivity. destruct (store h p s') as (q & h') eqn:Es.
    destruct (store_spec _ _ _ _ _ _ K (act_frame _ _ _ _ Ea) Es) as (G1 & G2 & G3 & G4 & G5 & G6). split; [reflexivity|]. exact (same_used _ _ _ _ _ _ _ _ HS Ew G1 G2 G3 G4 G5 G6).
  - pose proof (same_nth _ _ i HS) as K. cbn [fst snd] in K. destruct (nth_error w i) as [[p|]|] eqn:Ew, (nth_error v i) as [[s|]|] eqn:Ev; try contradiction; try exact I.
    split; [reflexivity|]. exact (same_freed _ _ _ _ _ HS Ew).
Qed.
Lemma run_same cs : forall W v, same W v ->
  match prun cs W, vrun cs v with
  | Ok (a, Some W), Ok (b, Some v) => a = b /\ same W v
  | Ok (a, None), Ok (b, None) => a = b
  | Throw m, Throw m' => m = m' | UB, UB => True | _, _ => False
  end.
Proof.
  induction cs as [|c cs IH]; intros W v HS; cbn [prun vrun]; [auto|].
  pose proof (step_same c W v HS) as H1. destruct (pstep c W) as [(x & [W1|])|m|], (vstep c v) as [(y & [v1|])|m'|]; cbn in H1; try contradiction; cbn [bind]; subst; auto.
  destruct H1 as (-> & HS1). specialize (IH W1 v1 HS1). destruct (prun cs W1) as [(xs & [W2|])|m|], (vrun cs v1) as [(ys & [v2|])|m'|]; try contradiction; cbn [bind]; subst; auto.
  - destruct IH as (-> & HS2). auto.
Qed.
Lemma start_same : same start []. Proof. split; cbn; [reflexivity|intros [|i] p; discriminate|intros [|i] j p q; discriminate]. Qed.
Lemma read_same W v : same W v -> read W = v.
Proof.
  intros HS. apply nth_ext. intros i. unfold read. rewrite nth_error_map. pose proof (same_nth _ _ i HS) as K. destruct (nth_error (fst W) i) as [[p|]|], (nth_error v i) as [[s|]|]; try contradiction; cbn; auto. now rewrite K.
Qed.
End P.
