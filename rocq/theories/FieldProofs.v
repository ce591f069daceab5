(* One layer at a time: equal patches give equal values. *)
From Verif Require Import Base Num ActModel NeuronModel LayerModel NetModel NeuronProofs LayerProofs SafeProofs SafeLayers FactoryModel FactorySpec FactoryProofs
  FactoryProps FilterSpec SafeNet BuildProofs FilterProofs HistProofs FilterProps PoolProofs PoolProps LOptProps FieldSpec.
Local Open Scope outcome_scope.
Local Open Scope nat_scope.

Section S.
Context {N : Num}.
Notation not_soft := (fun o : LOpt => match o with OSoftmax => False | _ => True end).
Lemma separate_opts d masks n os : separate d -> Forall2 same_opt (build_opts masks n (d_opts d)) os -> Forall not_soft os.
Proof.
  unfold separate. intros H H2. assert (Hb : Forall not_soft (build_opts masks n (d_opts d))).
  { unfold build_opts. apply Forall_forall. intros o Ho. apply in_map_iff in Ho as ([i q] & <- & Hq). apply in_combine_r in Hq. destruct q; cbn; auto. }
  clear H. induction H2 as [|a b ta tb H2 H3 IH]; [constructor|]. inversion Hb; subst. constructor; [|auto]. destruct a, b; cbn in H2; try discriminate; auto; contradiction.
Qed.
Lemma pointwise_testing os : Forall not_soft os -> exists g, forall v, opts_testing os v = Ok (map g v).
Proof.
  induction 1 as [|o t Ho H IH]; [exists (fun x => x); intros v; unfold opts_testing; cbn; now rewrite map_id|].
  destruct IH as (g & IH). unfold opts_testing in *. destruct o; try contradiction; cbn [ofold opt_testing bind];
    [exists (fun x => g (fmul x reverseValue)); intros v; rewrite IH, map_map; reflexivity|exists g; exact IH..].
Qed.
Lemma nth_map_lt {A} (g : A -> A) l i d : i < List.length l -> nth i (map g l) d = g (nth i l d).
Proof. intros H. rewrite nth_indep with (d' := g d) by now rewrite map_length. apply map_nth. Qed.

(* the layer optimizers allowed change nothing *)
Lemma lift_layer d s l : separate d -> layer_of d s l -> Forall (fun x => 0 < x) s -> sane_kernel d -> (forall draws masks l0, built draws masks d s l0 -> supported_pooling l0) ->
  forall v v' a b o o' l1 l2, layer_output l v a = Ok (o, l1) -> layer_output l v' b = Ok (o', l2) ->
  exists w w' b1 b2, body_output (l_body l) v a = Ok (w, b1) /\ body_output (l_body l) v' b = Ok (w', b2) /\ List.length o = List.length w /\ List.length o' = List.length w' /\
    forall i j, i < List.length w -> j < List.length w' -> nth i w fzero = nth j w' fzero -> nth i o fzero = nth j o' fzero.
Proof.
  intros Hd HL Hs Hk HP v v' a b o o' l1 l2 E1 E2. destruct (opts_state d s l HL Hs Hk HP) as (masks & HO). pose proof (separate_opts _ _ _ _ Hd HO) as HF.
  destruct (pointwise_testing _ HF) as (g & Hg). unfold layer_output in E1, E2.
  destruct (body_output (l_body l) v a) as [[w b1]| |] eqn:Eb1; cbn [bind] in E1; try discriminate. destruct (body_output (l_body l) v' b) as [[w' b2]| |] eqn:Eb2; cbn [bind] in E2; try discriminate.
  rewrite Hg in E1, E2. cbn [bind] in E1, E2. injection E1 as <- _. injection E2 as <- _. exists w, w', b1, b2. split; [reflexivity|]. split; [reflexivity|]. rewrite !map_length. split; [reflexivity|]. split; [reflexivity|].
  intros i j Hi Hj E. rewrite !nth_map_lt by assumption. now rewrite E.
Qed.
Lemma window1_patch C k v p v' q : same_patch1 C k v p v' q -> window1 C k v p = window1 C k v' q.
Proof. intros H. unfold window1. apply flat_map_ext_in. intros dx Hx. apply map_ext_in. intros c Hc. apply in_seq in Hx, Hc. apply H; lia. Qed.
Lemma window2_patch C X k v px py v' qx qy : same_patch2 C X k v px py v' qx qy -> window2 C X k v px py = window2 C X k v' qx qy.
Proof. intros H. unfold window2. apply flat_map_ext_in. intros dy Hy. apply flat_map_ext_in. intros dx Hx. apply map_ext_in. intros c Hc. apply in_seq in Hx, Hy, Hc. apply H; lia. Qed.
Lemma nth_at {A} (l : list A) i d x : nth_error l i = Some x -> nth i l d = x.
Proof. apply nth_error_nth. Qed.

Lemma conv2_patch d C X Y f k l v v' a b o o' l1 l2 : d_type d = t_conv -> d_filters d = Z.of_nat f -> d_ksize d = Z.of_nat k -> separate d ->
  0 < C -> 0 < X -> 0 < Y -> layer_of d [C; X; Y] l -> List.length v = C * X * Y -> List.length v' = C * X * Y ->
  layer_output l v a = Ok (o, l1) -> layer_output l v' b = Ok (o', l2) ->
  0 < f /\ k <= X /\ k <= Y /\ getShapeOfOutput l = [f; X - k + 1; Y - k + 1] /\ List.length o = f * (X - k + 1) * (Y - k + 1) /\ List.length o' = f * (X - k + 1) * (Y - k + 1) /\
  forall px py qx qy n, px < X - k + 1 -> py < Y - k + 1 -> qx < X - k + 1 -> qy < Y - k + 1 -> same_patch2 C X k v px py v' qx qy -> n < f ->
    nth (cell2 f (X - k + 1) px py n) o fzero = nth (cell2 f (X - k + 1) qx qy n) o' fzero.
Proof.
  intros Ht Hf Hk Hd HC HX HY HL Hv Hv' E1 E2.
  assert (Hpos : Forall (fun x => 0 < x) [C; X; Y]) by (repeat constructor; auto).
  assert (Hsane : sane_kernel d) by (unfold sane_kernel; rewrite Ht; lia).
  assert (HP : forall draws masks l0, built draws masks d [C; X; Y] l0 -> supported_pooling l0) by (intros ? ? l0 B; destruct B; try congruence; exact I).
  destruct (lift_layer d _ l Hd HL Hpos Hsane HP _ _ _ _ _ _ _ _ E1 E2) as (w & w' & b1 & b2 & B1 & B2 & L1 & L2 & HE).
  destruct (C28_convolution2D d C X Y f k l v a Ht Hf Hk HC HX HY HL Hv) as (K1 & K2 & _ & LW & _ & w0 & b0 & Eb & Lo & HW). rewrite B1 in Eb. injection Eb as <- <-.
  destruct (C28_convolution2D d C X Y f k l v' b Ht Hf Hk HC HX HY HL Hv') as (_ & _ & _ & _ & _ & w0 & b0 & Eb & Lo' & HW'). rewrite B2 in Eb. injection Eb as <- <-.
  assert (HS : 0 < f /\ getShapeOfOutput l = [f; X - k + 1; Y - k + 1]).
  { destruct (layer_of_wf d _ l HL Hpos Hsane HP) as (draws & masks & l0 & B & _ & _ & SL & _). destruct (same_layer_shape _ _ SL) as [-> _].
    destruct B; try congruence; [destruct H0 as [H0|[H0 _]]; discriminate|]. injection H0 as <- <- <-. assert (f0 = f) by lia. assert (ks = k) by lia. subst f0 ks. split; [assumption|reflexivity]. }
  destruct HS as [Hf0 HS]. split; [exact Hf0|]. split; [exact K1|]. split; [exact K2|]. split; [exact HS|]. rewrite L1, L2, Lo, Lo'. split; [reflexivity|]. split; [reflexivity|].
  intros px py qx qy n Hpx Hpy Hqx Hqy HPt Hn. destruct (nth_error (layer_weights l) n) as [wt|] eqn:Ew; [|apply nth_error_None in Ew; lia].
  pose proof (HW px py n wt Hpx Hpy Ew) as A1. pose proof (HW' qx qy n wt Hqx Hqy Ew) as A2. rewrite (window2_patch _ _ _ _ _ _ _ _ _ HPt) in A1.
  apply HE; [unfold cell2; apply nth_error_Some; congruence..|]. unfold cell2. now rewrite (nth_at _ _ _ _ A1), (nth_at _ _ _ _ A2).
Qed.
Lemma conv1_patch d s C X f k l v v' a b o o' l1 l2 : d_type d = t_conv -> d_filters d = Z.of_nat f -> d_ksize d = Z.of_nat k -> separate d ->
  s = [C; X] \/ s = [X] /\ C = 1 -> 0 < C -> 0 < X -> layer_of d s l -> List.length v = C * X -> List.length v' = C * X ->
  layer_output l v a = Ok (o, l1) -> layer_output l v' b = Ok (o', l2) ->
  0 < f /\ k <= X /\ getShapeOfOutput l = [f; X - k + 1] /\ List.length o = f * (X - k + 1) /\ List.length o' = f * (X - k + 1) /\
  forall p q n, p < X - k + 1 -> q < X - k + 1 -> same_patch1 C k v p v' q -> n < f ->
    nth (cell1 f p n) o fzero = nth (cell1 f q n) o' fzero.
Proof.
  intros Ht Hf Hk Hd Hs HC HX HL Hv Hv' E1 E2. destruct (shape1 s C X Hs HC HX) as [Hpos Hcells].
  assert (Hsane : sane_kernel d) by (unfold sane_kernel; rewrite Ht; lia).
  assert (HP : forall draws masks l0, built draws masks d s l0 -> supported_pooling l0) by (intros ? ? l0 B; destruct B; try congruence; exact I).
  destruct (lift_layer d _ l Hd HL Hpos Hsane HP _ _ _ _ _ _ _ _ E1 E2) as (w & w' & b1 & b2 & B1 & B2 & L1 & L2 & HE).
  destruct (C28_convolution1D d s C X f k l v a Ht Hf Hk Hs HC HX HL Hv) as (K1 & _ & LW & _ & w0 & b0 & Eb & Lo & HW). rewrite B1 in Eb. injection Eb as <- <-.
  destruct (C28_convolution1D d s C X f k l v' b Ht Hf Hk Hs HC HX HL Hv') as (_ & _ & _ & _ & w0 & b0 & Eb & Lo' & HW'). rewrite B2 in Eb. injection Eb as <- <-.
  assert (HS : 0 < f /\ getShapeOfOutput l = [f; X - k + 1]).
  { destruct (layer_of_wf d _ l HL Hpos Hsane HP) as (draws & masks & l0 & B & _ & _ & SL & _). destruct (same_layer_shape _ _ SL) as [-> _].
    destruct B; try congruence; [|subst s; destruct Hs as [Hs|[Hs _]]; discriminate].
    assert (Ec : c = C /\ x = X) by (destruct H0 as [H0|[H0 ?]], Hs as [Hs|[Hs ?]]; rewrite H0 in Hs; try discriminate; injection Hs; intros; subst; auto). destruct Ec as [-> ->].
    assert (f0 = f) by lia. assert (ks = k) by lia. subst f0 ks. split; [assumption|reflexivity]. }
  destruct HS as [Hf0 HS]. split; [exact Hf0|]. split; [exact K1|]. split; [exact HS|]. rewrite L1, L2, Lo, Lo'. split; [reflexivity|]. split; [reflexivity|].
  intros p q n Hp Hq HPt Hn. destruct (nth_error (layer_weights l) n) as [wt|] eqn:Ew; [|apply nth_error_None in Ew; lia].
  pose proof (HW p n wt Hp Ew) as A1. pose proof (HW' q n wt Hq Ew) as A2. rewrite (window1_patch _ _ _ _ _ _ HPt) in A1.
  apply HE; [unfold cell1; apply nth_error_Some; congruence..|]. unfold cell1. now rewrite (nth_at _ _ _ _ A1), (nth_at _ _ _ _ A2).
Qed.

(* max pooling: the place of the maximum in a row of cells depends only on the values there *)
Lemma best_place f x x' row row' b b' : List.length row = f_nin f -> List.length row' = f_nin f ->
  (forall j, j < f_nin f -> (0 <= nth j row (-1) < Z.of_nat (List.length x))%Z /\ (0 <= nth j row' (-1) < Z.of_nat (List.length x'))%Z /\
     nth (Z.to_nat (nth j row (-1)%Z)) x fzero = nth (Z.to_nat (nth j row' (-1)%Z)) x' fzero) ->
  maxIndexOf f x row = Ok b -> maxIndexOf f x' row' = Ok b' -> 0 < f_nin f ->
  (0 <= b)%Z /\ (0 <= b')%Z /\ nth (Z.to_nat b) x fzero = nth (Z.to_nat b') x' fzero.
Proof.
  intros Lr Lr' HE. unfold maxIndexOf.
  assert (G : forall n, n <= f_nin f -> forall b b',
    ofold (fun best i => let* idx := lget row i in if (0 <=? idx)%Z then if (best =? -1)%Z then Ok idx else let* a := lgetZ x idx in let* b := lgetZ x best in Ok (if fgeb a b then idx else best) else Ok best) (seq 0 n) (-1)%Z = Ok b ->
    ofold (fun best i => let* idx := lget row' i in if (0 <=? idx)%Z then if (best =? -1)%Z then Ok idx else let* a := lgetZ x' idx in let* b := lgetZ x' best in Ok (if fgeb a b then idx else best) else Ok best) (seq 0 n) (-1)%Z = Ok b' ->
    (n = 0%nat /\ b = -1 /\ b' = -1)%Z \/ exists j, j < n /\ b = nth j row (-1)%Z /\ b' = nth j row' (-1)%Z).
  { induction n as [|n IH]; intros Hn c c' E E'.
    - cbn in E, E'. left. split; [reflexivity|]. split; congruence.
    - rewrite seq_S in E, E'. rewrite ofold_app in E, E'. apply bind_Ok_inv in E as (c0 & E0 & E). apply bind_Ok_inv in E' as (c0' & E0' & E'). cbn [plus ofold] in E, E'.
      specialize (IH ltac:(lia) _ _ E0 E0'). clear E0 E0'. destruct (HE n ltac:(lia)) as (H1 & H2 & H3).
      unfold lget in E, E'. rewrite (nth_error_nth' row (-1)%Z) in E by lia. rewrite (nth_error_nth' row' (-1)%Z) in E' by lia. cbn [bind] in E, E'.
      destruct (Z.leb_spec 0 (nth n row (-1)%Z)) in E; [|lia]. destruct (Z.leb_spec 0 (nth n row' (-1)%Z)) in E'; [|lia].
      right. destruct IH as [(-> & -> & ->)|(j & Hj & -> & ->)].
      + rewrite Z.eqb_refl in E, E'. cbn [bind] in E, E'. injection E as <-. injection E' as <-. exists 0. split; [lia|]. split; reflexivity.
      + destruct (HE j ltac:(lia)) as (J1 & J2 & J3).
        destruct (Z.eqb_spec (nth j row (-1)%Z) (-1)); [lia|]. destruct (Z.eqb_spec (nth j row' (-1)%Z) (-1)); [lia|].
        unfold lgetZ, lget in E, E'.
        repeat match type of E with context [(?z <? 0)%Z] => destruct (Z.ltb_spec z 0) in E; [lia|] | context [(0 <=? ?z)%Z] => destruct (Z.leb_spec 0 z) in E; [|lia] end.
        repeat match type of E' with context [(?z <? 0)%Z] => destruct (Z.ltb_spec z 0) in E'; [lia|] | context [(0 <=? ?z)%Z] => destruct (Z.leb_spec 0 z) in E'; [|lia] end.
        rewrite (nth_error_nth' x fzero) in E by lia. rewrite (nth_error_nth' x fzero (n := Z.to_nat (nth j row (-1)%Z))) in E by lia.
        rewrite (nth_error_nth' x' fzero) in E' by lia. rewrite (nth_error_nth' x' fzero (n := Z.to_nat (nth j row' (-1)%Z))) in E' by lia. cbn [bind] in E, E'.
        rewrite H3, J3 in E. injection E as <-. injection E' as <-. match goal with |- context [if ?c then _ else _] => destruct c end; [exists n|exists j]; split; auto; lia. }
  intros E E' Hp. destruct (G (f_nin f) (le_n _) _ _ E E') as [(H0 & _)|(j & Hj & -> & ->)]; [lia|]. destruct (HE j Hj) as (H1 & H2 & H3). split; [lia|]. split; [lia|exact H3].
Qed.

Lemma pool_output_at f x o f1 p : pool_output f x = Ok (o, f1) -> p < List.length (f_index f) ->
  exists b, maxIndexOf f x (nth p (f_index f) []) = Ok b /\ lgetZ x b = Ok (nth p o fzero).
Proof.
  intros E Hp. unfold pool_output in E. destruct (_ <? _) in E; [discriminate|]. apply bind_Ok_inv in E as (best & E1 & E). apply bind_Ok_inv in E as (outs & E2 & E). apply bind_Ok_inv in E as (os & E3 & E).
  injection E as <- _. pose proof (omap_Ok_length _ _ _ E1) as L1. pose proof (omap_Ok_length _ _ _ E2) as L2.
  destruct (omap_Ok_nth _ _ _ p (nth p (f_index f) []) E1) as (b & A1 & A2); [now apply nth_error_nth'|]. exists b. split; [exact A1|].
  destruct (omap_Ok_nth _ _ _ p b E2 A2) as (y & B1 & B2). rewrite B1. f_equal. unfold fill in E3. destruct (_ <=? _) in E3; [|discriminate]. injection E3 as <-.
  rewrite app_nth1 by lia. symmetry. now apply nth_at.
Qed.
Lemma lgetZ_nth (x : list F) b y : lgetZ x b = Ok y -> y = nth (Z.to_nat b) x fzero.
Proof. unfold lgetZ, lget. destruct (_ <? _)%Z; [discriminate|]. destruct (nth_error x (Z.to_nat b)) eqn:E; [|discriminate]. intros H. injection H as <-. symmetry. now apply nth_at. Qed.
Lemma pool_patch f x x' o o' f1 f2 p q : pool_output f x = Ok (o, f1) -> pool_output f x' = Ok (o', f2) -> p < List.length (f_index f) -> q < List.length (f_index f) -> 0 < f_nin f ->
  List.length (nth p (f_index f) []) = f_nin f -> List.length (nth q (f_index f) []) = f_nin f ->
  (forall j, j < f_nin f -> (0 <= nth j (nth p (f_index f) []) (-1) < Z.of_nat (List.length x))%Z /\ (0 <= nth j (nth q (f_index f) []) (-1) < Z.of_nat (List.length x'))%Z /\
     nth (Z.to_nat (nth j (nth p (f_index f) []) (-1)%Z)) x fzero = nth (Z.to_nat (nth j (nth q (f_index f) []) (-1)%Z)) x' fzero) ->
  nth p o fzero = nth q o' fzero.
Proof.
  intros E1 E2 Hp Hq Hn L1 L2 HE. destruct (pool_output_at _ _ _ _ _ E1 Hp) as (b & M1 & G1). destruct (pool_output_at _ _ _ _ _ E2 Hq) as (b' & M2 & G2).
  destruct (best_place f x x' _ _ b b' L1 L2 HE M1 M2 Hn) as (_ & _ & H). apply lgetZ_nth in G1, G2. congruence.
Qed.

(* a complete tile: all its cells are in the array *)
Lemma row2_at C X Y k oX oY q j : 0 < C -> 0 < k -> q < C * oX * oY -> j < k * k ->
  (q / C mod oX + 1) * k <= X -> (q / C / oY + 1) * k <= Y ->
  nth j (nth q (pool2D_index C X k oX oY (C * X * Y) (C * oX * oY)) []) (-1)%Z = Z.of_nat (cell2 C X (q / C mod oX * k + j mod k) (q / C / oY * k + j / k) (q mod C)) /\
  cell2 C X (q / C mod oX * k + j mod k) (q / C / oY * k + j / k) (q mod C) < C * X * Y.
Proof.
  intros HC Hk Hq Hj HX HY. pose proof (Nat.mod_upper_bound j k ltac:(lia)) as M1. assert (M2 : j / k < k) by (apply Nat.div_lt_upper_bound; lia).
  pose proof (Nat.mod_upper_bound q C ltac:(lia)) as Hc. unfold pool2D_index. rewrite (nth_map_in _ _ _ _ 0) by (rewrite seq_length; lia). rewrite seq_nth by lia. cbn [plus]. cbv zeta.
  set (px := q / C mod oX) in *. set (py := q / C / oY) in *. set (c := q mod C) in *. unfold cells.
  assert (HB : cell2 C X (px * k + j mod k) (py * k + j / k) c < C * X * Y) by (unfold cell2; apply grid_bound; nia). split; [|exact HB].
  rewrite (Nat.div_mod j k) at 1 by lia. rewrite (Nat.mul_comm k (j / k)). apply nth_at.
  rewrite (nth_error_flat_map_const _ _ k (fun a _ => eq_trans (map_length _ _) (seq_length _ _)) (j / k) (j mod k) (j / k)); [|rewrite (nth_error_nth' _ 0) by (rewrite seq_length; lia); now rewrite seq_nth by lia|lia].
  rewrite nth_error_map, (nth_error_nth' _ 0) by (rewrite seq_length; lia). rewrite seq_nth by lia. cbn [option_map plus].
  unfold orNone. unfold cell2 in *. destruct (Nat.ltb_spec ((px * k + j mod k) * C + c) (X * C)); [|exfalso; nia]. cbn [andb].
  match goal with |- context [?a <? ?b] => destruct (Nat.ltb_spec a b) as [|G] end; [f_equal; f_equal; lia|exfalso; lia].
Qed.
Lemma pool2_patch d C X Y k l v v' a b o o' l1 l2 : d_type d = t_pool -> d_ksize d = Z.of_nat k -> separate d -> covering X k = covering Y k ->
  0 < C -> 0 < X -> 0 < Y -> layer_of d [C; X; Y] l -> List.length v = C * X * Y -> List.length v' = C * X * Y ->
  layer_output l v a = Ok (o, l1) -> layer_output l v' b = Ok (o', l2) ->
  0 < k /\ k <= X /\ k <= Y /\ getShapeOfOutput l = [C; covering X k; covering Y k] /\ List.length o = C * covering X k * covering Y k /\ List.length o' = C * covering X k * covering Y k /\
  forall px py qx qy c, (px + 1) * k <= X -> (py + 1) * k <= Y -> (qx + 1) * k <= X -> (qy + 1) * k <= Y -> c < C ->
    (forall dx dy, dx < k -> dy < k -> nth (cell2 C X (px * k + dx) (py * k + dy) c) v fzero = nth (cell2 C X (qx * k + dx) (qy * k + dy) c) v' fzero) ->
    nth (cell2 C (covering X k) px py c) o fzero = nth (cell2 C (covering X k) qx qy c) o' fzero.
Proof.
  intros Ht Hk Hd HE HC HX HY HL Hv Hv' E1 E2.
  assert (Hpos : Forall (fun x => 0 < x) [C; X; Y]) by (repeat constructor; auto).
  assert (Hsane : sane_kernel d) by (unfold sane_kernel; rewrite Ht; lia).
  assert (HP : forall draws masks l0, built draws masks d [C; X; Y] l0 -> supported_pooling l0).
  { intros ? ? l0 B. destruct B; try congruence; [destruct H0 as [H0|[H0 _]]; discriminate|]. injection H0 as <- <- <-. cbn [supported_pooling finish l_body f_shapeOut nth].
    assert (ks = k) by lia. subst ks. rewrite !tiles_covering by auto. lia. }
  destruct (lift_layer d _ l Hd HL Hpos Hsane HP _ _ _ _ _ _ _ _ E1 E2) as (w & w' & b1 & b2 & B1 & B2 & L1 & L2 & HEq).
  destruct (layer_of_wf d [C; X; Y] l HL Hpos Hsane HP) as (draws & masks & l0 & B & W0 & W & SL & SS).
  destruct (layer_output_wf _ _ _ v a W) as (? & ? & A & LA & _); [rewrite cells3; exact Hv|]. rewrite E1 in A. injection A as <- <-.
  destruct (layer_output_wf _ _ _ v' b W) as (? & ? & A & LB & _); [rewrite cells3; exact Hv'|]. rewrite E2 in A. injection A as <- <-.
  destruct (same_layer_shape _ _ SL) as [HS _].
  destruct B; try congruence; [destruct H0 as [H0|[H0 _]]; discriminate|].
  injection H0 as <- <- <-. assert (ks = k) by lia. subst ks. rewrite <- (tiles_covering X k), <- (tiles_covering Y k) in * by auto.
  destruct (pool_state _ _ _ _ _ _ _ _ SL W I) as (mi & Eb & Hh & Hm & Hin & Hkk). cbn [f_index f_kernels] in *.
  destruct (tiles_spec X k H2 HX) as (T1 & T2 & T3). destruct (tiles_spec Y k H2 HY) as (T4 & T5 & T6). set (oX := tiles X k) in *. set (oY := tiles Y k) in *.
  split; [assumption|]. split; [assumption|]. split; [assumption|]. split; [rewrite HS; reflexivity|].
  assert (Ls : cell_count (getShapeOfOutput (finish masks (C * X * Y) d (BFilter Pool2D (mkFilter C (C * oX * oY) 0 0 k (k * k) [C; X; Y] [C; oX; oY] (pool2D_index C X k oX oY (C * X * Y) (C * oX * oY)) (C * oX * oY) (repeat 0%Z (C * oX * oY))) []))) = C * oX * oY) by (cbn [getShapeOfOutput finish l_body f_shapeOut]; apply cells3).
  rewrite Ls in LA, LB. split; [exact LA|]. split; [exact LB|].
  intros px py qx qy c Hpx Hpy Hqx Hqy Hc HT. rewrite LA in L1. rewrite LB in L2.
  assert (Px : px < oX) by nia. assert (Py : py < oY) by nia. assert (Qx : qx < oX) by nia. assert (Qy : qy < oY) by nia.
  rewrite Eb in B1, B2. cbn [body_output] in B1, B2.
  apply bind_Ok_inv in B1 as ([w0 f1] & B1 & B3). injection B3 as <- _. apply bind_Ok_inv in B2 as ([w0' f2] & B2 & B3). injection B3 as <- _.
  assert (Hat : forall px py c, px < oX -> py < oY -> c < C -> cell2 C oX px py c < C * oX * oY /\ cell2 C oX px py c mod C = c /\ cell2 C oX px py c / C mod oX = px /\ cell2 C oX px py c / C / oY = py).
  { clear - HE HC T1 T4. intros px py c Hpx Hpy Hc. unfold cell2. assert (E : (py * oX + px) * C + c < C * oX * oY) by (apply grid_bound; auto).
    assert (E1 : ((py * oX + px) * C + c) / C = py * oX + px) by (symmetry; apply Nat.div_unique with c; lia). rewrite E1. split; [exact E|]. split; [symmetry; apply Nat.mod_unique with (py * oX + px); lia|].
    split; [symmetry; apply Nat.mod_unique with py; lia|]. rewrite <- HE. symmetry. apply Nat.div_unique with px; lia. }
  destruct (Hat px py c Px Py Hc) as (P1 & P2 & P3 & P4). destruct (Hat qx qy c Qx Qy Hc) as (Q1 & Q2 & Q3 & Q4).
  apply HEq; [lia|lia|].
  set (p := cell2 C oX px py c) in *. set (q := cell2 C oX qx qy c) in *.
  assert (LI : List.length (pool2D_index C X k oX oY (C * X * Y) (C * oX * oY)) = C * oX * oY) by (unfold pool2D_index; now rewrite map_length, seq_length).
  assert (LR : forall i, i < C * oX * oY -> List.length (nth i (pool2D_index C X k oX oY (C * X * Y) (C * oX * oY)) []) = k * k).
  { intros i Hi. pose proof (pool2D_rows C X k oX oY (C * X * Y) (C * oX * oY)) as HR. unfold rowsOK in HR. rewrite Forall_forall in HR. apply HR. apply nth_In. lia. }
  refine (pool_patch _ v v' w0 w0' f1 f2 p q B1 B2 _ _ _ _ _ _); cbn [f_index f_nin set_maxIndex]; [lia|lia|nia|now apply LR|now apply LR|].
  intros j Hj. pose proof (Nat.mod_upper_bound j k ltac:(lia)) as M1. assert (M2 : j / k < k) by (apply Nat.div_lt_upper_bound; lia).
  destruct (row2_at C X Y k oX oY p j) as [R1 R2]; auto; [rewrite P3; lia|rewrite P4; lia|]. destruct (row2_at C X Y k oX oY q j) as [S1 S2]; auto; [rewrite Q3; lia|rewrite Q4; lia|].
  rewrite R1, S1, !Nat2Z.id, Hv, Hv'. split; [lia|]. split; [lia|]. rewrite P2, P3, P4, Q2, Q3, Q4. now apply HT.
Qed.

Lemma pool1_patch d s X k l v v' a b o o' l1 l2 : d_type d = t_pool -> d_ksize d = Z.of_nat k -> separate d ->
  s = [1; X] \/ s = [X] -> 0 < X -> layer_of d s l -> List.length v = X -> List.length v' = X ->
  layer_output l v a = Ok (o, l1) -> layer_output l v' b = Ok (o', l2) ->
  0 < k /\ k <= X /\ getShapeOfOutput l = [1; covering X k] /\ List.length o = covering X k /\ List.length o' = covering X k /\
  forall p q, (p + 1) * k <= X -> (q + 1) * k <= X ->
    (forall dx, dx < k -> nth (p * k + dx) v fzero = nth (q * k + dx) v' fzero) ->
    nth p o fzero = nth q o' fzero.
Proof.
  intros Ht Hk Hd Hs HX HL Hv Hv' E1 E2.
  assert (Hpos : Forall (fun x => 0 < x) s) by (destruct Hs as [->| ->]; repeat constructor; auto).
  assert (Hsane : sane_kernel d) by (unfold sane_kernel; rewrite Ht; lia).
  assert (HP : forall draws masks l0, built draws masks d s l0 -> supported_pooling l0).
  { intros ? ? l0 B. destruct B; try congruence; [|subst s; destruct Hs as [Hs|Hs]; discriminate].
    cbn [supported_pooling finish l_body f_shapeIn nth]. destruct H0 as [->|[-> ->]]; [|reflexivity]. destruct Hs as [Hs|Hs]; [injection Hs; auto|discriminate]. }
  assert (Ecc : cell_count s = X) by (destruct Hs as [->| ->]; unfold cell_count; cbn; lia).
  destruct (lift_layer d _ l Hd HL Hpos Hsane HP _ _ _ _ _ _ _ _ E1 E2) as (w & w' & b1 & b2 & B1 & B2 & L1 & L2 & HEq).
  destruct (layer_of_wf d s l HL Hpos Hsane HP) as (draws & masks & l0 & B & W0 & W & SL & SS). rewrite Ecc in W.
  destruct (layer_output_wf _ _ _ v a W Hv) as (? & ? & A & LA & _). rewrite E1 in A. injection A as <- <-.
  destruct (layer_output_wf _ _ _ v' b W Hv') as (? & ? & A & LB & _). rewrite E2 in A. injection A as <- <-.
  destruct (same_layer_shape _ _ SL) as [HS _].
  destruct B; try congruence; [|subst s; destruct Hs as [Hs|Hs]; discriminate].
  assert (Ec : c = 1 /\ x = X) by (destruct H0 as [H0|[H0 ?]], Hs as [Hs|Hs]; rewrite H0 in Hs; try discriminate; injection Hs; intros; subst; auto). destruct Ec as [-> ->].
  assert (ks = k) by lia. subst ks. rewrite !Nat.mul_1_l in *. rewrite <- (tiles_covering X k) in * by auto.
  destruct (pool_state _ _ _ _ _ _ _ _ SL W I) as (mi & Eb & Hh & Hm & Hin & Hkk). cbn [f_index f_kernels] in *.
  destruct (tiles_spec X k H2 HX) as (T1 & T2 & T3). set (oX := tiles X k) in *.
  split; [assumption|]. split; [assumption|]. split; [rewrite HS; reflexivity|].
  assert (Ls : cell_count (getShapeOfOutput (finish masks X d (BFilter Pool1D (mkFilter 1 oX 0 0 k k [1; X] [1; oX] (pool1D_index 1 k X oX) oX (repeat 0%Z oX)) []))) = oX) by (cbn [getShapeOfOutput finish l_body f_shapeOut]; unfold cell_count; cbn; lia).
  rewrite Ls in LA, LB. split; [exact LA|]. split; [exact LB|].
  intros p q Hpx Hqx HT. rewrite LA in L1. rewrite LB in L2.
  assert (Px : p < oX) by nia. assert (Qx : q < oX) by nia.
  rewrite Eb in B1, B2. cbn [body_output] in B1, B2.
  apply bind_Ok_inv in B1 as ([w0 f1] & B1 & B3). injection B3 as <- _. apply bind_Ok_inv in B2 as ([w0' f2] & B2 & B3). injection B3 as <- _.
  apply HEq; [lia|lia|].
  assert (LI : List.length (pool1D_index 1 k X oX) = oX) by (unfold pool1D_index; now rewrite map_length, seq_length).
  assert (LR : forall i, i < oX -> List.length (nth i (pool1D_index 1 k X oX) []) = k).
  { intros i Hi. pose proof (pool1D_rows 1 k X oX) as HR. unfold rowsOK in HR. rewrite Forall_forall in HR. apply HR. apply nth_In. lia. }
  assert (R : forall i j, i < oX -> j < k -> (i + 1) * k <= X -> nth j (nth i (pool1D_index 1 k X oX) []) (-1)%Z = Z.of_nat (i * k + j)).
  { clear - H2. intros i j Hi Hj HX. unfold pool1D_index. rewrite (nth_map_in _ _ _ _ 0) by (rewrite seq_length; lia). rewrite seq_nth by lia. cbn [plus]. cbv zeta.
    rewrite (nth_map_in _ _ _ _ 0) by (rewrite seq_length; lia). rewrite seq_nth by lia. cbn [plus]. rewrite Nat.div_1_r, Nat.mod_1_r, Nat.mul_1_r, Nat.add_0_r.
    unfold orNone. destruct (Nat.ltb_spec (i * k + j) X); [reflexivity|nia]. }
  refine (pool_patch _ v v' w0 w0' f1 f2 p q B1 B2 _ _ _ _ _ _); cbn [f_index f_nin set_maxIndex]; [lia|lia|lia|now apply LR|now apply LR|].
  intros j Hj. rewrite !R by lia. rewrite !Nat2Z.id, Hv, Hv'. split; [nia|]. split; [nia|]. now apply HT.
Qed.

(* a stack of layers *)
Lemma chain_cons_inv (g : nat -> Layer -> list F -> outcome (list F * Layer)) i l t v o ls' : chain g i (l :: t) v = Ok (o, ls') ->
  exists u l' t', g i l v = Ok (u, l') /\ chain g (S i) t u = Ok (o, t').
Proof. cbn [chain]. intros H. apply bind_Ok_inv in H as ([u l'] & E & H). apply bind_Ok_inv in H as ([w t'] & E2 & H). injection H as <- _. eauto 6. Qed.
Lemma stack2_chain ds C X Y f oX oY r t : stack2 ds C X Y f oX oY r t -> 0 < C -> 0 < X -> 0 < Y -> Forall sane_kernel ds ->
  forall ls i v v' a b o o' ls1 ls2, layers_of ds [C; X; Y] ls -> List.length v = C * X * Y -> List.length v' = C * X * Y ->
  chain (fun _ l v => layer_output l v a) i ls v = Ok (o, ls1) -> chain (fun _ l v => layer_output l v b) i ls v' = Ok (o', ls2) ->
  List.length o = f * oX * oY /\ List.length o' = f * oX * oY /\
  forall px py qx qy, t * px + r <= X -> t * py + r <= Y -> t * qx + r <= X -> t * qy + r <= Y ->
    same_patch2 C X r v (t * px) (t * py) v' (t * qx) (t * qy) -> px < oX /\ py < oY /\ qx < oX /\ qy < oY /\
    forall n, n < f -> nth (cell2 f oX px py n) o fzero = nth (cell2 f oX qx qy n) o' fzero.
Proof.
  induction 1 as [C X Y|d ds C X Y f k f' oX oY r t Ht Hf Hk Hd HS IH|d ds C X Y k f' oX oY r t Ht Hk Hd HE HS IH];
    intros HC HX HY HF ls i v v' a b o o' ls1 ls2 HL Hv Hv' E1 E2.
  - destruct ls; [|contradiction]. cbn [chain] in *. injection E1 as <- _. injection E2 as <- _. split; [exact Hv|]. split; [exact Hv'|].
    intros px py qx qy Hpx Hpy Hqx Hqy HP. do 4 (split; [lia|]). intros n Hn. specialize (HP 0 0 n ltac:(lia) ltac:(lia) Hn). rewrite !Nat.mul_1_l, !Nat.add_0_r in HP. exact HP.
  - destruct ls as [|l ls]; [contradiction|]. destruct HL as [HL HLt]. inversion HF; subst.
    apply chain_cons_inv in E1 as (u & l' & t1 & A1 & E1). apply chain_cons_inv in E2 as (u' & l2' & t2 & A2 & E2). cbv beta in A1, A2.
    destruct (conv2_patch d C X Y f k l v v' a b u u' _ _ Ht Hf Hk Hd HC HX HY HL Hv Hv' A1 A2) as (Hf0 & K1 & K2 & Sh & Lu & Lu' & HP).
    rewrite Sh in HLt. destruct (IH Hf0 ltac:(lia) ltac:(lia) ltac:(assumption) _ _ _ _ _ _ _ _ _ _ HLt Lu Lu' E1 E2) as (Lo & Lo' & HQ).
    split; [exact Lo|]. split; [exact Lo'|]. intros px py qx qy Hpx Hpy Hqx Hqy HPt. apply HQ; [lia..|].
    intros dx dy c Hx Hy Hc. apply HP; [lia..| |exact Hc].
    intros ex ey c' Hex Hey Hc'. rewrite <- !Nat.add_assoc. apply HPt; [lia..|exact Hc'].
  - destruct ls as [|l ls]; [contradiction|]. destruct HL as [HL HLt]. inversion HF; subst.
    apply chain_cons_inv in E1 as (u & l' & t1 & A1 & E1). apply chain_cons_inv in E2 as (u' & l2' & t2 & A2 & E2). cbv beta in A1, A2.
    destruct (pool2_patch d C X Y k l v v' a b u u' _ _ Ht Hk Hd HE HC HX HY HL Hv Hv' A1 A2) as (K0 & K1 & K2 & Sh & Lu & Lu' & HP).
    rewrite Sh in HLt. pose proof (tiles_spec X k K0 HX) as (T1 & T2 & T3). pose proof (tiles_spec Y k K0 HY) as (T4 & T5 & T6). rewrite (tiles_covering X k K0 HX) in *. rewrite (tiles_covering Y k K0 HY) in *.
    destruct (IH HC T1 T4 ltac:(assumption) _ _ _ _ _ _ _ _ _ _ HLt Lu Lu' E1 E2) as (Lo & Lo' & HQ).
    split; [exact Lo|]. split; [exact Lo'|].
    assert (HI : forall p Z0, k * t * p + k * r <= Z0 -> Z0 <= covering X k * k \/ Z0 <= covering Y k * k -> t * p + r <= covering X k).
    { intros p Z0 H H'. assert (k * (t * p + r) <= covering X k * k) by (destruct H' as [?|?]; [|rewrite HE in *]; lia). nia. }
    intros px py qx qy Hpx Hpy Hqx Hqy HPt. apply HQ; [eapply HI; [exact Hpx|auto]|rewrite <- HE; eapply HI; [exact Hpy|auto]|eapply HI; [exact Hqx|auto]|rewrite <- HE; eapply HI; [exact Hqy|auto]|].
    assert (HT : forall p Z0 dx, k * t * p + k * r <= Z0 -> dx < r -> (t * p + dx + 1) * k <= Z0).
    { intros p Z0 dx H H'. assert ((t * p + dx + 1) * k <= (t * p + r) * k) by (apply Nat.mul_le_mono_r; lia). lia. }
    intros dx dy c Hx Hy Hc. apply HP; [now apply HT..|exact Hc|].
    intros ex ey Hex Hey. assert (HR : forall q e, (t * q + e) * k = k * t * q + e * k) by (intros; ring).
    rewrite !HR, <- !Nat.add_assoc. apply HPt; [nia|nia|exact Hc].
Qed.
Lemma stack1_chain ds C X f oX r t : stack1 ds C X f oX r t -> 0 < C -> 0 < X -> Forall sane_kernel ds ->
  forall s ls i v v' a b o o' ls1 ls2, s = [C; X] \/ s = [X] /\ C = 1 -> layers_of ds s ls -> List.length v = C * X -> List.length v' = C * X ->
  chain (fun _ l v => layer_output l v a) i ls v = Ok (o, ls1) -> chain (fun _ l v => layer_output l v b) i ls v' = Ok (o', ls2) ->
  List.length o = f * oX /\ List.length o' = f * oX /\
  forall p q, t * p + r <= X -> t * q + r <= X -> same_patch1 C r v (t * p) v' (t * q) -> p < oX /\ q < oX /\
    forall n, n < f -> nth (cell1 f p n) o fzero = nth (cell1 f q n) o' fzero.
Proof.
  induction 1 as [C X|d ds C X f k f' oX r t Ht Hf Hk Hd HS IH|d ds X k f' oX r t Ht Hk Hd HS IH];
    intros HC HX HF s ls i v v' a b o o' ls1 ls2 Hs HL Hv Hv' E1 E2.
  - destruct ls; [|contradiction]. cbn [chain] in *. injection E1 as <- _. injection E2 as <- _. split; [exact Hv|]. split; [exact Hv'|].
    intros p q Hp Hq HP. do 2 (split; [lia|]). intros n Hn. specialize (HP 0 n ltac:(lia) Hn). rewrite !Nat.mul_1_l, !Nat.add_0_r in HP. exact HP.
  - destruct ls as [|l ls]; [contradiction|]. destruct HL as [HL HLt]. inversion HF; subst.
    apply chain_cons_inv in E1 as (u & l' & t1 & A1 & E1). apply chain_cons_inv in E2 as (u' & l2' & t2 & A2 & E2). cbv beta in A1, A2.
    destruct (conv1_patch d s C X f k l v v' a b u u' _ _ Ht Hf Hk Hd Hs HC HX HL Hv Hv' A1 A2) as (Hf0 & K1 & Sh & Lu & Lu' & HP).
    rewrite Sh in HLt. destruct (IH Hf0 ltac:(lia) ltac:(assumption) _ _ _ _ _ _ _ _ _ _ _ (or_introl eq_refl) HLt Lu Lu' E1 E2) as (Lo & Lo' & HQ).
    split; [exact Lo|]. split; [exact Lo'|]. intros p q Hp Hq HPt. apply HQ; [lia..|].
    intros dx c Hx Hc. apply HP; [lia..| |exact Hc].
    intros ex c' Hex Hc'. rewrite <- !Nat.add_assoc. apply HPt; [lia..|exact Hc'].
  - destruct ls as [|l ls]; [contradiction|]. destruct HL as [HL HLt]. inversion HF; subst. rewrite Nat.mul_1_l in Hv, Hv'.
    apply chain_cons_inv in E1 as (u & l' & t1 & A1 & E1). apply chain_cons_inv in E2 as (u' & l2' & t2 & A2 & E2). cbv beta in A1, A2.
    assert (Hs' : s = [1; X] \/ s = [X]) by tauto.
    destruct (pool1_patch d s X k l v v' a b u u' _ _ Ht Hk Hd Hs' HX HL Hv Hv' A1 A2) as (K0 & K1 & Sh & Lu & Lu' & HP).
    rewrite Sh in HLt. pose proof (tiles_spec X k K0 HX) as (T1 & T2 & T3). rewrite (tiles_covering X k K0 HX) in *. rewrite <- (Nat.mul_1_l (covering X k)) in Lu, Lu'.
    destruct (IH HC T1 ltac:(assumption) _ _ _ _ _ _ _ _ _ _ _ (or_introl eq_refl) HLt Lu Lu' E1 E2) as (Lo & Lo' & HQ).
    split; [exact Lo|]. split; [exact Lo'|].
    intros p q Hp Hq HPt. apply HQ; [nia|nia|].
    assert (HT : forall p dx, k * t * p + k * r <= X -> dx < r -> (t * p + dx + 1) * k <= X).
    { intros p0 dx H H'. assert ((t * p0 + dx + 1) * k <= (t * p0 + r) * k) by (apply Nat.mul_le_mono_r; lia). lia. }
    intros dx c Hx Hc. assert (c = 0) by lia. subst c. unfold cell1. rewrite !Nat.mul_1_r, !Nat.add_0_r. apply HP; [now apply HT..|].
    intros ex Hex. assert (HR : forall q e, (t * q + e) * k = k * t * q + e * k) by (intros; ring).
    rewrite !HR, <- !Nat.add_assoc. specialize (HPt (dx * k + ex) 0 ltac:(nia) ltac:(lia)). unfold cell1 in HPt. rewrite !Nat.mul_1_r, !Nat.add_0_r in HPt. exact HPt.
Qed.

(* the first layers of a network *)
Lemma layers_of_split ds : forall more s ls, layers_of (ds ++ more) s ls -> exists ls1 ls2, ls = ls1 ++ ls2 /\ layers_of ds s ls1 /\ List.length ls1 = List.length ds.
Proof.
  induction ds as [|d ds IH]; intros more s ls H; [exists [], ls; cbn; auto|]. destruct ls as [|l ls]; [contradiction|]. destruct H as [H1 H2].
  destruct (IH _ _ _ H2) as (l1 & l2 & -> & H3 & H4). exists (l :: l1), l2. cbn. auto.
Qed.
Lemma chain_outputs_prefix l1 : forall l2 v os ls' i, l1 <> [] -> chain_outputs (l1 ++ l2) v = Ok (os, ls') ->
  exists o l1', chain (fun _ l v => layer_output l v true) i l1 v = Ok (o, l1') /\ nth_error os (List.length l1 - 1) = Some o.
Proof.
  induction l1 as [|l t IH]; intros l2 v os ls' i Hne H; [congruence|]. cbn [app chain_outputs] in H. apply bind_Ok_inv in H as ([u l'] & E & H). apply bind_Ok_inv in H as ([r t'] & E2 & H). injection H as <- _.
  cbn [chain]. rewrite E. cbn [bind]. destruct t as [|l3 t].
  - exists u, [l']. split; reflexivity.
  - destruct (IH l2 u r t' (S i) ltac:(discriminate) E2) as (o & l1' & C & G). rewrite C. cbn [bind]. exists o, (l' :: l1'). split; [reflexivity|].
    cbn [List.length] in G |- *. replace (S (S (List.length t)) - 1) with (S (S (List.length t) - 1)) by lia. exact G.
Qed.
End S.
