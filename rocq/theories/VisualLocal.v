(* C47: what the picture of the weights of a 2-D locally connected layer shows. *)
From Verif Require Import Base Num NeuronModel LayerModel VisualModel VisualSpec VisualProofs.
Local Open Scope nat_scope.
Local Open Scope outcome_scope.

(* ---------- vocabulary ---------- *)
Section Spec.
Context {N : Num}.
(* neuron number n of a filter, in reading order in a grid with oX neurons in a row, is given the square of k x k pixels whose corner is at
   (n mod oX, n / oX) *)
Definition covers (k oX n i j : nat) : bool := (n mod oX <=? i) && (i <? n mod oX + k) && (n / oX <=? j) && (j <? n / oX + k).
(* the weights which are added up for pixel (i, j) of picture number num: those of the rows 0, num + 1, 2 (num + 1), ... of [ws] *)
Definition piled (ws : list (list F)) (k oX oY num i j : nat) : list F :=
  flat_map (fun n => if covers k oX n i j then [nth ((j - n / oX) * k + (i - n mod oX)) (nth (n * (num + 1)) ws []) fzero] else []) (seq 0 (oX * oY)).
Definition total (l : list F) : F := fold_left fadd l fzero.
(* the level of grey of a value: round(127.5 (tanh(v / 2) + 1)) *)
Definition tinted (cv : Conv) (v : F) (level : Z) : Prop :=
  trunc cv (rounded cv (fmul (fadd (ftanh (fdiv v (fofZ 2))) fone) (flit 1275 10))) = Some level /\ (0 <= level <= 255)%Z.
End Spec.

(* ---------- adding the weights ---------- *)
Section P.
Context {N : Num} (cv : Conv).

Lemma add_fold (v : list F) (at_ : nat -> nat) m w : m <= List.length v -> (forall t, t < m -> at_ t < List.length w) ->
  (forall t t', t < m -> t' < m -> at_ t = at_ t' -> t = t') ->
  exists w', ofold (fun w t => bind (lget w (at_ t)) (fun a => bind (lget v t) (fun b => lset w (at_ t) (fadd a b)))) (seq 0 m) w = Ok w' /\ List.length w' = List.length w /\
    (forall t, t < m -> nth (at_ t) w' fzero = fadd (nth (at_ t) w fzero) (nth t v fzero)) /\
    (forall p, (forall t, t < m -> p <> at_ t) -> nth p w' fzero = nth p w fzero).
Proof.
  induction m as [|m IH]; intros Hv Hin Hinj.
  - exists w. cbn. split; [reflexivity|]. split; [reflexivity|]. split; [intros; lia|auto].
  - destruct IH as (w1 & E & L & A & B); [lia|intros; apply Hin; lia|intros; apply Hinj; lia|].
    rewrite seq_S, ofold_app, E. cbn [bind ofold Nat.add].
    assert (G1 : lget w1 (at_ m) = Ok (nth (at_ m) w1 fzero)) by (unfold lget; rewrite (nth_error_nth' _ fzero); [reflexivity|rewrite L; apply Hin; lia]).
    assert (G2 : lget v m = Ok (nth m v fzero)) by (unfold lget; rewrite (nth_error_nth' _ fzero); [reflexivity|lia]).
    rewrite G1. cbn [bind]. rewrite G2. cbn [bind]. unfold lset. destruct (Nat.ltb_spec (at_ m) (List.length w1)) as [Hl|]; [|exfalso; rewrite L in *; specialize (Hin m); lia].
    cbn [bind]. eexists. split; [reflexivity|]. split; [rewrite replace_length; exact L|].
    assert (Rn : forall p x, nth p (replace w1 (at_ m) x) fzero = if p =? at_ m then x else nth p w1 fzero).
    { intros p x. pose proof (nth_error_replace w1 (at_ m) x p) as Hr. destruct (Nat.eqb_spec p (at_ m)) as [->|Hne].
      - destruct (Nat.ltb_spec (at_ m) (List.length w1)); [|lia]. apply nth_error_nth with (d := fzero) in Hr. exact Hr.
      - destruct (nth_error w1 p) as [q|] eqn:Eq.
        + apply nth_error_nth with (d := fzero) in Hr. apply nth_error_nth with (d := fzero) in Eq. now rewrite Hr, Eq.
        + apply nth_error_None in Eq. apply nth_error_None in Hr. now rewrite !nth_overflow by assumption. }
    split.
    + intros t Ht. rewrite Rn. destruct (Nat.eqb_spec (at_ t) (at_ m)) as [Et|Hne].
      * apply Hinj in Et; [|lia|lia]. subst t. f_equal. apply B. intros t Ht' Eq. apply Hinj in Eq; lia.
      * apply A. assert (t <> m) by congruence. lia.
    + intros p Hp. rewrite Rn. destruct (Nat.eqb_spec p (at_ m)) as [->|]; [exfalso; apply (Hp m); lia|]. apply B. intros t Ht. apply Hp. lia.
Qed.

(* one neuron *)
Lemma stamp_fold (v : list F) k px py inX inY w : k * k <= List.length v -> px + k <= inX -> py + k <= inY -> inX * inY <= List.length w ->
  exists w', ofold (fun w y => ofold (fun w x => bind (lget w ((py + y) * inX + (px + x))) (fun a => bind (lget v (y * k + x)) (fun b => lset w ((py + y) * inX + (px + x)) (fadd a b))))
      (seq 0 k) w) (seq 0 k) w = Ok w' /\ List.length w' = List.length w /\
    forall i j, i < inX -> j < inY -> nth (j * inX + i) w' fzero =
      if (px <=? i) && (i <? px + k) && (py <=? j) && (j <? py + k) then fadd (nth (j * inX + i) w fzero) (nth ((j - py) * k + (i - px)) v fzero) else nth (j * inX + i) w fzero.
Proof.
  intros Hv Hx Hy Hw.
  destruct (Nat.eq_dec k 0) as [->|Hk0].
  { exists w. split; [reflexivity|]. split; [reflexivity|]. intros i j Hi Hj. destruct (Nat.leb_spec px i), (Nat.ltb_spec i (px + 0)); cbn [andb]; try lia; reflexivity. }
  rewrite (grid_fold (fun w y x => bind (lget w ((py + y) * inX + (px + x))) (fun a => bind (lget v (y * k + x)) (fun b => lset w ((py + y) * inX + (px + x)) (fadd a b)))) k k w).
  pose (at_ := fun t => (py + t / k) * inX + (px + t mod k)).
  assert (Pt : forall t, t < k * k -> t / k < k /\ t mod k < k /\ t = t / k * k + t mod k).
  { intros t Ht. split; [apply Nat.div_lt_upper_bound; lia|]. split; [apply Nat.mod_upper_bound; lia|]. pose proof (Nat.div_mod t k ltac:(lia)). lia. }
  assert (Pa : forall a b i j, a < inX -> i < inX -> b * inX + a = j * inX + i -> a = i /\ b = j).
  { intros a b i j Ha Hi E. assert (b = j) by (apply (f_equal (fun z => z / inX)) in E; rewrite !Nat.div_add_l, !Nat.div_small in E by lia; lia). subst. lia. }
  destruct (add_fold v at_ (k * k) w Hv) as (w' & E & L & A & B).
  { intros t Ht. destruct (Pt t Ht) as (H1 & H2 & _). unfold at_. assert ((py + t / k + 1) * inX <= inY * inX) by (apply Nat.mul_le_mono_r; lia). lia. }
  { intros t t' Ht Ht' Eq. destruct (Pt t Ht) as (H1 & H2 & H3), (Pt t' Ht') as (H1' & H2' & H3'). unfold at_ in Eq. apply Pa in Eq as [Q1 Q2]; [|lia|lia].
    rewrite H3, H3'. f_equal; [f_equal|]; lia. }
  exists w'. split; [|split; [exact L|]].
  - rewrite <- E. apply ofold_ext_in. intros s t Ht. apply in_seq in Ht. destruct (Pt t ltac:(lia)) as (_ & _ & H3). unfold at_. rewrite <- H3. reflexivity.
  - intros i j Hi Hj. destruct ((px <=? i) && (i <? px + k) && (py <=? j) && (j <? py + k)) eqn:C.
    + apply andb_true_iff in C as [C C4]. apply andb_true_iff in C as [C C3]. apply andb_true_iff in C as [C1 C2].
      apply Nat.leb_le in C1, C3. apply Nat.ltb_lt in C2, C4. assert (Ht : (j - py) * k + (i - px) < k * k) by nia. specialize (A _ Ht). unfold at_ in A.
      rewrite Nat.div_add_l, (Nat.div_small (i - px)), (Nat.add_comm _ (i - px)), Nat.mod_add, Nat.mod_small in A by lia.
      replace (py + (j - py + 0)) with j in A by lia. replace (px + (i - px)) with i in A by lia. rewrite A. f_equal. f_equal. lia.
    + apply B. intros t Ht Eq. destruct (Pt t Ht) as (H1 & H2 & _). unfold at_ in Eq. symmetry in Eq. apply Pa in Eq as [Q1 Q2]; [|lia|lia].
      rewrite <- Q1, <- Q2 in C. destruct (Nat.leb_spec px (px + t mod k)); [|lia]. destruct (Nat.ltb_spec (px + t mod k) (px + k)); [|lia].
      destruct (Nat.leb_spec py (py + t / k)); [|lia]. destruct (Nat.ltb_spec (py + t / k) (py + k)); [|lia]. discriminate.
Qed.

Lemma fold_left_flat {A B} (f : A -> B -> A) l1 l2 a : fold_left f (l1 ++ l2) a = fold_left f l2 (fold_left f l1 a).
Proof. apply fold_left_app. Qed.

Lemma getWeights_shows f nin ns oX oY inX inY num : 0 < oX -> 0 < oY -> oX - 1 + f_ksize f <= inX -> oY - 1 + f_ksize f <= inY -> inX * inY <= nin ->
  (oX * oY - 1) * (num + 1) < List.length ns -> Forall (fun n => f_ksize f * f_ksize f <= List.length (n_w n)) ns ->
  exists w, getWeights f nin ns oX oY inX num = Ok w /\ List.length w = nin /\
    forall i j, i < inX -> j < inY -> nth (j * inX + i) w fzero = total (piled (map n_w ns) (f_ksize f) oX oY num i j).
Proof.
  intros HoX HoY HX HY Hnin Hns Hw. unfold getWeights. set (k := f_ksize f) in *.
  enough (G : forall m, m <= oX * oY -> exists w, ofold (fun w n => bind (lget ns (n * (num + 1))) (fun neuron =>
      if oX * oY =? 0 then UB else ofold (fun w y => ofold (fun w x =>
        bind (lget w (((n mod (oX * oY)) / oX + y) * inX + ((n mod (oX * oY)) mod oX + x))) (fun a => bind (lget (n_w neuron) (y * k + x)) (fun b => lset w (((n mod (oX * oY)) / oX + y) * inX + ((n mod (oX * oY)) mod oX + x)) (fadd a b))))
        (seq 0 k) w) (seq 0 k) w)) (seq 0 m) (repeat fzero nin) = Ok w /\ List.length w = nin /\
      forall i j, i < inX -> j < inY -> nth (j * inX + i) w fzero =
        total (flat_map (fun n => if covers k oX n i j then [nth ((j - n / oX) * k + (i - n mod oX)) (nth (n * (num + 1)) (map n_w ns) []) fzero] else []) (seq 0 m))) by (apply G; lia).
  induction m as [|m IH]; intros Hm.
  - exists (repeat fzero nin). split; [reflexivity|]. split; [apply repeat_length|]. intros i j Hi Hj. cbn [seq flat_map]. unfold total. cbn. 
    destruct (nth_in_or_default (j * inX + i) (repeat fzero nin) (fzero : F)) as [Hin|Hd]; [apply repeat_spec in Hin; exact Hin|exact Hd].
  - destruct IH as (w & E & L & A); [lia|]. rewrite seq_S, ofold_app, E. cbn [bind ofold Nat.add].
    assert (Hin : m * (num + 1) < List.length ns) by nia. unfold lget at 1. destruct (nth_error ns (m * (num + 1))) as [nr|] eqn:En; [|apply nth_error_None in En; lia]. cbn [bind].
    destruct (Nat.eqb_spec (oX * oY) 0); [nia|]. rewrite (Nat.mod_small m (oX * oY)) by lia.
    assert (Hmx : m mod oX < oX) by (apply Nat.mod_upper_bound; lia). assert (Hmy : m / oX < oY) by (apply Nat.div_lt_upper_bound; lia).
    destruct (stamp_fold (n_w nr) k (m mod oX) (m / oX) inX inY w) as (w' & E' & L' & A').
    { rewrite Forall_forall in Hw. apply Hw. eapply nth_error_In; eauto. } { lia. } { lia. } { lia. }
    rewrite E'. cbn [bind]. exists w'. split; [reflexivity|]. split; [lia|]. intros i j Hi Hj. rewrite A' by assumption. rewrite flat_map_app. unfold total. rewrite fold_left_app.
    fold (total (flat_map (fun n0 => if covers k oX n0 i j then [nth ((j - n0 / oX) * k + (i - n0 mod oX)) (nth (n0 * (num + 1)) (map n_w ns) []) fzero] else []) (seq 0 m))).
    rewrite <- A by assumption. cbn [flat_map]. rewrite app_nil_r. fold (covers k oX m i j). destruct (covers k oX m i j); [|reflexivity]. cbn [fold_left].
    assert (Er : nth (m * (num + 1)) (map n_w ns) [] = n_w nr) by (apply nth_error_nth; rewrite nth_error_map, En; reflexivity). rewrite Er. reflexivity.
Qed.

(* ---------- painting ---------- *)
Definition dims_are (w h : nat) (im : bitmap) : Prop := bm_width im = w /\ bm_height im = h /\ List.length (bm_data im) = w * h.
Definition paints (w h : nat) (f : bitmap -> outcome bitmap) (P : nat -> nat -> bool) (col : nat -> nat -> pixel) : Prop :=
  forall im, dims_are w h im -> exists im', f im = Ok im' /\ dims_are w h im' /\
    forall x y, x < w -> y < h -> pixel_at im' x y = if P x y then Some (col x y) else pixel_at im x y.
Lemma paints_fold {A} w h (f : bitmap -> A -> outcome bitmap) l (P : A -> nat -> nat -> bool) col : (forall a, In a l -> paints w h (fun im => f im a) (P a) col) ->
  paints w h (fun im => ofold f l im) (fun x y => existsb (fun a => P a x y) l) col.
Proof.
  induction l as [|a l IH]; intros H im D.
  - exists im. cbn. auto.
  - destruct (H a (or_introl eq_refl) im D) as (im1 & E1 & D1 & A1). destruct (IH (fun b Hb => H b (or_intror Hb)) im1 D1) as (im2 & E2 & D2 & A2).
    exists im2. cbn [ofold]. rewrite E1. cbn [bind]. split; [exact E2|]. split; [exact D2|]. intros x y Hx Hy. rewrite A2, A1 by assumption. cbn [existsb].
    destruct (P a x y), (existsb _ l); reflexivity.
Qed.
Lemma paints_none w h col : paints w h Ok (fun _ _ => false) col.
Proof. intros im D. exists im. auto. Qed.
Lemma paints_pixel w h px py c col : px < w -> py < h -> c = col px py -> paints w h (fun im => set_pixel im px py c) (fun x y => (x =? px) && (y =? py)) col.
Proof.
  intros Hx Hy -> im (Dw & Dh & Dl). unfold set_pixel, lset. rewrite Dw, Dl. assert (Hb : py * w + px < w * h) by nia. destruct (Nat.ltb_spec (py * w + px) (w * h)); [|lia]. cbn [bind].
  eexists. split; [reflexivity|]. split; [split; [reflexivity|]; split; [exact Dh|]; cbn [bm_data]; now rewrite replace_length|].
  intros x y Hx' Hy'. unfold pixel_at. cbn [bm_width bm_height bm_data]. rewrite Dw, Dh. destruct (Nat.ltb_spec x w); [|lia]. destruct (Nat.ltb_spec y h); [|lia]. cbn [andb].
  rewrite nth_error_replace. destruct (Nat.eqb_spec x px) as [->|Nx]; cbn [andb].
  - destruct (Nat.eqb_spec y py) as [->|Ny]. { rewrite Nat.eqb_refl, Dl. destruct (Nat.ltb_spec (py * w + px) (w * h)); [reflexivity|lia]. }
    destruct (Nat.eqb_spec (y * w + px) (py * w + px)) as [E|]; [|reflexivity]. exfalso. apply Ny. nia.
  - destruct (Nat.eqb_spec (y * w + x) (py * w + px)) as [E|]; [|reflexivity]. exfalso. apply Nx.
    assert (y = py) by (apply (f_equal (fun z => z / w)) in E; rewrite !Nat.div_add_l, !Nat.div_small in E by lia; lia). subst. lia.
Qed.
Lemma paints_ext w h f g P col : (forall im, f im = g im) -> paints w h f P col -> paints w h g P col.
Proof. intros E H im D. rewrite <- E. exact (H im D). Qed.

Lemma weightColour_tinted v l : tinted cv v l -> weightColour cv v = Ok l.
Proof. intros [E B]. unfold weightColour, uchar. rewrite E. destruct (Z.leb_spec 0 l); [|lia]. destruct (Z.leb_spec l 255); [|lia]. reflexivity. Qed.

Lemma drawWeights_shows f nin ns C oX oY inX inY (level : nat -> nat -> nat -> Z) : 0 < C -> square_side C (ceilSqrt cv C) -> 0 < inX -> 0 < inY ->
  0 < oX -> 0 < oY -> oX - 1 + f_ksize f <= inX -> oY - 1 + f_ksize f <= inY -> inX * inY <= nin ->
  List.length ns = C * (oX * oY) -> Forall (fun n => f_ksize f * f_ksize f <= List.length (n_w n)) ns ->
  (forall c i j, c < C -> i < inX -> j < inY -> tinted cv (total (piled (map n_w ns) (f_ksize f) oX oY c i j)) (level c i j)) ->
  exists im, drawWeights cv f nin ns C oX oY inX inY = Ok im /\ shows (ceilSqrt cv C) C inX inY (fun c i j => grey (level c i j)) im.
Proof.
  intros HC HS HX HY HoX HoY Hkx Hky Hnin Hns Hw HT. destruct (grid_room cv C HC HS) as (Hg & Hroom & Hgy).
  set (gx := gridX cv C) in *. set (gy := gridY cv C) in *. set (W := (inX + 1) * gx - 1). set (H := (inY + 1) * gy - 1).
  set (col := fun x y => grey (level (y / (inY + 1) * gx + x / (inX + 1)) (x mod (inX + 1)) (y mod (inY + 1)))).
  assert (Dec : forall a i X, i < X -> (a * (X + 1) + i) / (X + 1) = a /\ (a * (X + 1) + i) mod (X + 1) = i).
  { intros a i X Hi. rewrite Nat.div_add_l, Nat.div_small by lia. rewrite (Nat.add_comm _ i), Nat.mod_add, Nat.mod_small by lia. lia. }
  assert (Pt : paints W H (fun im => ofold (fun im x => ofold (fun im y =>
      if y * gx + x <? C then
        bind (getWeights f nin ns oX oY inX (gx * y + x)) (fun w =>
        ofold (fun im i => ofold (fun im j =>
          bind (lget w (j * inX + i)) (fun v => bind (weightColour cv v) (fun c =>
          set_pixel im (x * (inX + 1) + i) (y * (inY + 1) + j) (grey c)))) (seq 0 inY) im) (seq 0 inX) im)
      else Ok im) (seq 0 gy) im) (seq 0 gx) im)
    (fun X Y => existsb (fun x => existsb (fun y => (y * gx + x <? C) && existsb (fun i => existsb (fun j => (X =? x * (inX + 1) + i) && (Y =? y * (inY + 1) + j)) (seq 0 inY)) (seq 0 inX)) (seq 0 gy)) (seq 0 gx)) col).
  { apply (paints_fold W H _ (seq 0 gx) (fun x X Y => existsb (fun y => (y * gx + x <? C) && existsb (fun i => existsb (fun j => (X =? x * (inX + 1) + i) && (Y =? y * (inY + 1) + j)) (seq 0 inY)) (seq 0 inX)) (seq 0 gy))).
    intros x Hx. apply in_seq in Hx.
    apply (paints_fold W H _ (seq 0 gy) (fun y X Y => (y * gx + x <? C) && existsb (fun i => existsb (fun j => (X =? x * (inX + 1) + i) && (Y =? y * (inY + 1) + j)) (seq 0 inY)) (seq 0 inX))).
    intros y Hy. apply in_seq in Hy. destruct (Nat.ltb_spec (y * gx + x) C) as [Hc|]; cbn [andb]; [|apply paints_none].
    replace (gx * y + x) with (y * gx + x) by lia.
    destruct (getWeights_shows f nin ns oX oY inX inY (y * gx + x)) as (w & Ew & Lw & Aw); auto.
    { rewrite Hns. assert (0 < oX * oY) by nia. nia. }
    eapply paints_ext; [intros im; rewrite Ew; cbn [bind]; reflexivity|].
    apply (paints_fold W H _ (seq 0 inX) (fun i X Y => existsb (fun j => (X =? x * (inX + 1) + i) && (Y =? y * (inY + 1) + j)) (seq 0 inY))). intros i Hi. apply in_seq in Hi.
    apply (paints_fold W H _ (seq 0 inY) (fun j X Y => (X =? x * (inX + 1) + i) && (Y =? y * (inY + 1) + j))). intros j Hj. apply in_seq in Hj.
    assert (Hb : j * inX + i < List.length w) by (rewrite Lw; nia).
    eapply paints_ext.
    { intros im. unfold lget. rewrite (nth_error_nth' _ fzero) by exact Hb. cbn [bind]. rewrite Aw by lia. rewrite (weightColour_tinted _ _ (HT (y * gx + x) i j Hc ltac:(lia) ltac:(lia))). cbn [bind]. reflexivity. }
    apply paints_pixel; [unfold W; nia|unfold H; nia|]. unfold col. destruct (Dec x i inX ltac:(lia)) as [-> ->]. destruct (Dec y j inY ltac:(lia)) as [-> ->]. reflexivity. }
  destruct (Pt (newBitmap W H)) as (im & E & (Dw & Dh & Dl) & A).
  { split; [reflexivity|]. split; [reflexivity|]. cbn [newBitmap bm_data]. apply repeat_length. }
  exists im. split; [exact E|]. change (ceilSqrt cv C) with gx.
  assert (Place : forall c i j, c < C -> i < inX -> j < inY -> column gx inX c i < W /\ row gx inY c j < H /\ c mod gx < gx /\ c / gx < gy).
  { intros c i j Hc Hi Hj. unfold column, row, W, H. assert (c mod gx < gx) by (apply Nat.mod_upper_bound; lia). assert (c / gx < gy) by (apply Nat.div_lt_upper_bound; lia). repeat split; nia. }
  split; [|split].
  - intros c i j Hc Hi Hj. destruct (Place c i j Hc Hi Hj) as (P1 & P2 & P3 & P4). rewrite A by assumption. unfold column, row.
    pose proof (Nat.div_mod c gx ltac:(lia)) as Hdm.
    match goal with |- (if ?b then _ else _) = _ => assert (Hb : b = true) end.
    { apply existsb_exists. exists (c mod gx). split; [apply in_seq; lia|]. apply existsb_exists. exists (c / gx). split; [apply in_seq; lia|].
      apply andb_true_iff. split; [apply Nat.ltb_lt; lia|]. apply existsb_exists. exists i. split; [apply in_seq; lia|]. apply existsb_exists. exists j. split; [apply in_seq; lia|]. now rewrite !Nat.eqb_refl. }
    rewrite Hb. unfold col. destruct (Dec (c mod gx) i inX Hi) as [-> ->]. destruct (Dec (c / gx) j inY Hj) as [-> ->]. replace (c / gx * gx + c mod gx) with c by lia. reflexivity.
  - intros c i j c' i' j' Hc Hi Hj Hc' Hi' Hj' Ex Ey. unfold column, row in *.
    apply (place_inj gx) in Ex as [A1 A2]; auto. apply (place_inj gx) in Ey as [B1 B2]; auto. split; [|auto].
    rewrite (Nat.div_mod c gx), (Nat.div_mod c' gx) by lia. congruence.
  - intros x y q Hq Hno. assert (Hxy : x < W /\ y < H).
    { unfold pixel_at in Hq. rewrite Dw, Dh in Hq. destruct (Nat.ltb_spec x W); [|discriminate]. destruct (Nat.ltb_spec y H); [auto|discriminate]. }
    destruct Hxy as [Hx Hy]. rewrite A in Hq by assumption.
    match type of Hq with (if ?b then _ else _) = _ => destruct b eqn:Hb end.
    + exfalso. apply existsb_exists in Hb as (a & Ha & Hb). apply existsb_exists in Hb as (b & Hb' & Hb). apply andb_true_iff in Hb as [Hc Hb]. apply Nat.ltb_lt in Hc.
      apply existsb_exists in Hb as (i & Hi & Hb). apply existsb_exists in Hb as (j & Hj & Hb). apply andb_true_iff in Hb as [E1 E2]. apply Nat.eqb_eq in E1, E2.
      apply in_seq in Ha, Hb', Hi, Hj. apply (Hno (b * gx + a) i j Hc); [lia|lia|]. unfold column, row. rewrite Nat.div_add_l, (Nat.div_small a) by lia. rewrite (Nat.add_comm _ a), Nat.mod_add, Nat.mod_small by lia.
      rewrite Nat.add_0_r. auto.
    + unfold pixel_at in Hq. cbn [newBitmap bm_width bm_height bm_data] in Hq. destruct (_ && _); [|discriminate]. apply nth_error_In, repeat_spec in Hq. exact Hq.
Qed.
End P.
