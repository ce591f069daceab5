(* Model of src/data/*.cpp and include/snn/data/*.hpp.
   Simplifications: C++ `int` sizes and indices that come from vector sizes are `nat` (no 2^31 limit);
   `ranges::shuffle(v, rng)` is replaced by an oracle that gives the order of the old positions. *)
From Verif Require Import Base Num.
Local Open Scope nat_scope.
Local Open Scope outcome_scope.
Local Open Scope string_scope.
Local Open Scope list_scope.

(* include/snn/data/Data.hpp 14-29 *)
Inductive problem := classification | multipleClassification | regression.
Inductive nature := nonTemporal | sequential | timeSeries.

(* include/snn/data/Set.hpp 7-11 *)
Inductive set_id := testing | training.

Section Data.
Context {N : Num}.

(* include/snn/data/Set.hpp 13-24 (the never used member `index` is left out) *)
Record Set_ := mkSet {
  s_size : nat;
  s_nseq : nat;
  s_inputs : list (list F);
  s_labels : list (list F);
  s_shuffled : list nat;
  s_first : list bool;         (* areFirstDataOfTemporalSequence *)
  s_train : list bool;         (* needToTrainOnData *)
  s_eval : list bool           (* needToEvaluateOnData *)
}.
Definition emptySet : Set_ := mkSet 0 0 [] [] [] [] [] [].

(* The three subclasses of TemporalComposite with their own members:
   CompositeForTemporalData.hpp (indexesForShuffles);
   CompositeForTimeSeries.hpp (numberOfRecurrences, indexesForShuffling, offset; `divide`, `rest` are
   only read in the constructor). *)
Inductive temporal :=
| TNon
| TSeq (indexesForShuffles : list nat)
| TSeries (recur : nat) (indexesForShuffling : list nat) (offset : nat).

(* include/snn/data/Data.hpp 31-112 *)
Record Data := mkData {
  d_problem : problem;
  d_nature : nature;
  d_train : Set_;                 (* sets[training] *)
  d_test : Set_;                  (* sets[testing] *)
  d_sizeOfData : nat;
  d_numberOfLabels : nat;
  d_precision : F;
  d_separator : F;
  d_temporal : temporal;          (* temporalComposite *)
  d_batchedData : list F;         (* Data::batchedData *)
  d_batchedLabels : list F        (* ProblemComposite::batchedLabels *)
}.

(* ---- src/data/Data.cpp 158-181: Data::flatten(set, input3D) ----
   state: position i, inputs so far, areFirst flags, needToEvaluate flags (testing only) *)
Definition totalSize (in3 : list (list (list F))) : nat :=
  fold_left (fun s v => s + length v) in3 0.

Definition flatten_step (isTesting : bool) (st : nat * list (list F) * list bool * list bool)
    (v : list (list F)) : outcome (nat * list (list F) * list bool * list bool) :=
  let '(i, ins, first, ev) := st in
  let ins' := ins ++ v in
  let* first' := lset first i true in
  let i' := i + length v in
  if isTesting
  then (* needToEvaluateOnData[i - 1] = true, i is a size_t: i - 1 wraps when i = 0 *)
       match i' with
       | O => UB
       | S k => let* ev' := lset ev k true in Ok (i', ins', first', ev')
       end
  else Ok (i', ins', first', ev).

Definition flatten_set (isTesting : bool) (in3 : list (list (list F))) : outcome Set_ :=
  let size := totalSize in3 in
  let* st := ofold (flatten_step isTesting) in3
                   (0, [], repeat false size, if isTesting then repeat false size else []) in
  let '(_, ins, first, ev) := st in
  Ok (mkSet (length ins) (length in3) ins [] [] first [] ev).

(* ---- src/data/Data.cpp 183-211: Data::flatten(input3D), the same rows for both sets ---- *)
Definition flatten_both (in3 : list (list (list F))) : outcome (Set_ * Set_) :=
  let size := totalSize in3 in
  let* st := ofold (flatten_step true) in3 (0, [], repeat false size, repeat false size) in
  let '(_, ins, first, ev) := st in
  Ok (mkSet (length ins) (length in3) ins [] [] first [] [],
      mkSet (length ins) (length in3) ins [] [] first [] ev).

(* ---- src/data/CompositeForTemporalData.cpp 9-19: constructor.
   The loop is `for (int i = 0; i > size; ++i)`. [fuel] bounds the number of iterations. *)
Fixpoint seq_ctor_loop (fuel i size : nat) (first : list bool) (acc : list nat) : outcome (list nat) :=
  match fuel with
  | O => UB
  | S k =>
    if Nat.ltb size i
    then let* b := lget first i in
         seq_ctor_loop k (S i) size first (if b then acc ++ [i] else acc)
    else Ok acc
  end.
Definition seq_ctor (tr : Set_) : outcome (list nat) :=
  seq_ctor_loop (S (S (s_size tr))) 0 (s_size tr) (s_first tr) [].

(* ---- src/data/CompositeForTimeSeries.cpp 11-32: constructor ---- *)
Definition series_ctor (tr te : Set_) (rec : Z) : outcome (temporal * Set_ * Set_) :=
  if (rec <? 1)%Z then Throw "The number of recurrence must be >= 1 for time series."
  else
    let r := Z.to_nat rec in
    let divide := s_size tr / (r + 1) in
    let* first := lset (repeat false (s_size tr)) 0 true in
    Ok (TSeries r (seq 0 divide) 0,
        mkSet (s_size tr) 1 (s_inputs tr) (s_labels tr) (s_shuffled tr) first
              (repeat true (s_size tr)) (s_eval tr),
        mkSet (s_size te) 1 (s_inputs te) (s_labels te) (s_shuffled te) (s_first te)
              (s_train te) (s_eval te)).

(* ---- isValid of the composites ---- *)
Definition isEmpty {A} (l : list A) : bool := match l with [] => true | _ => false end.
(* CompositeForClassification.cpp 14-19; Multiple 13-16; Regression 13-16; ProblemComposite.cpp 15-20 *)
Definition problem_isValid (p : problem) (tr : Set_) : outcome nat :=
  match p with
  | classification =>
      let* l0 := lget (s_labels tr) 0 in
      if Nat.ltb (length l0) 2 then Ok 406 else Ok 0
  | _ => Ok 0
  end.
(* CompositeForNonTemporalData.cpp 47-57, CompositeForTemporalData.cpp 62-73, CompositeForTimeSeries.cpp 109-120 *)
Definition temporal_isValid (t : temporal) (tr te : Set_) : nat :=
  match t with
  | TNon =>
      if negb (isEmpty (s_first tr)) || negb (isEmpty (s_first te))
         || negb (isEmpty (s_train tr)) || negb (isEmpty (s_train te))
         || negb (isEmpty (s_eval tr)) || negb (isEmpty (s_eval te))
      then 404 else 0
  | TSeq _ =>
      if negb (Nat.eqb (length (s_first tr)) (s_size tr)) || negb (Nat.eqb (length (s_first te)) (s_size te))
         || negb (isEmpty (s_train tr)) || negb (isEmpty (s_train te))
         || negb (isEmpty (s_eval tr)) || negb (Nat.eqb (length (s_eval te)) (s_size te))
      then 404 else 0
  | TSeries _ _ _ =>
      if negb (Nat.eqb (length (s_first tr)) (s_size tr)) || negb (isEmpty (s_first te))
         || negb (Nat.eqb (length (s_train tr)) (s_size tr)) || negb (isEmpty (s_train te))
         || negb (isEmpty (s_eval tr)) || negb (isEmpty (s_eval te))
      then 404 else 0
  end.

(* ---- src/data/Data.cpp 269-288: Data::isValid ---- *)
Definition data_isValid (p : problem) (t : temporal) (tr te : Set_) : outcome nat :=
  if negb (isEmpty (s_shuffled te)) && negb (Nat.eqb (s_size tr) (length (s_shuffled tr)))
  then Ok 403
  else if negb (Nat.eqb (s_size tr) (length (s_inputs tr)))
       && negb (Nat.eqb (s_size tr) (length (s_labels tr)))
       && negb (Nat.eqb (s_size te) (length (s_inputs tr)))
       && negb (Nat.eqb (s_size te) (length (s_labels tr)))
  then Ok 405
  else
    let* e := problem_isValid p tr in
    if negb (Nat.eqb e 0) then Ok e
    else Ok (temporal_isValid t tr te).

(* ---- src/data/Data.cpp 97-156: Data::initialize; tr0/te0 hold what flatten left in the sets ---- *)
Definition initialize (p : problem) (n : nature) (rec : Z) (tr0 te0 : Set_)
    (trIn trLab teIn teLab : list (list F)) : outcome Data :=
  match rev trIn, rev trLab with
  | lastIn :: _, lastLab :: _ =>
    let size := length trLab in
    let tr := mkSet size (s_nseq tr0) trIn trLab (seq 0 size) (s_first tr0) (s_train tr0) (s_eval tr0) in
    let te := mkSet (length teLab) (s_nseq te0) teIn teLab (s_shuffled te0) (s_first te0) (s_train te0) (s_eval te0) in
    let* comp :=
      match n with
      | nonTemporal => Ok (TNon, mkSet (s_size tr) 0 trIn trLab (s_shuffled tr) (s_first tr) (s_train tr) (s_eval tr),
                                 mkSet (s_size te) 0 teIn teLab (s_shuffled te) (s_first te) (s_train te) (s_eval te))
      | sequential => let* l := seq_ctor tr in Ok (TSeq l, tr, te)
      | timeSeries => series_ctor tr te rec
      end in
    let '(t, tr', te') := comp in
    let* err := data_isValid p t tr' te' in
    if negb (Nat.eqb err 0)
    then Throw "Wrong parameter in the creation of data"
    else Ok (mkData p n tr' te' (length lastIn) (length lastLab) (flit 1 10) (flit 1 2) t [] [])
  | _, _ => UB (* back() of an empty vector *)
  end.

(* ---- the four constructors, src/data/Data.cpp 22-95 ---- *)
Definition mkData4 (p : problem) (trIn trLab teIn teLab : list (list F)) (n : nature) (rec : Z) : outcome Data :=
  initialize p n rec emptySet emptySet trIn trLab teIn teLab.
Definition mkData2 (p : problem) (ins labs : list (list F)) (n : nature) (rec : Z) : outcome Data :=
  initialize p n rec emptySet emptySet ins labs ins labs.
Definition mkData4_3D (p : problem) (trIn : list (list (list F))) (trLab : list (list F))
    (teIn : list (list (list F))) (teLab : list (list F)) (n : nature) (rec : Z) : outcome Data :=
  match n with
  | sequential =>
      let* tr := flatten_set false trIn in
      let* te := flatten_set true teIn in
      initialize p n rec tr te (s_inputs tr) trLab (s_inputs te) teLab
  | _ => Throw "Vector 3D type inputs are only for sequential data."
  end.
Definition mkData2_3D (p : problem) (ins : list (list (list F))) (labs : list (list F)) (n : nature) (rec : Z) : outcome Data :=
  match n with
  | sequential =>
      let* (tr, te) := flatten_both ins in
      initialize p n rec tr te (s_inputs tr) labs (s_inputs te) labs
  | _ => Throw "Vector 3D type inputs are only for sequential data."
  end.

Definition with_sets (d : Data) (tr te : Set_) : Data :=
  mkData (d_problem d) (d_nature d) tr te (d_sizeOfData d) (d_numberOfLabels d) (d_precision d)
         (d_separator d) (d_temporal d) (d_batchedData d) (d_batchedLabels d).
Definition with_temporal (d : Data) (t : temporal) (tr : Set_) : Data :=
  mkData (d_problem d) (d_nature d) tr (d_test d) (d_sizeOfData d) (d_numberOfLabels d) (d_precision d)
         (d_separator d) t (d_batchedData d) (d_batchedLabels d).
Definition with_shuffled (s : Set_) (l : list nat) : Set_ :=
  mkSet (s_size s) (s_nseq s) (s_inputs s) (s_labels s) l (s_first s) (s_train s) (s_eval s).
Definition with_flags (s : Set_) (sh : list nat) (first train : list bool) : Set_ :=
  mkSet (s_size s) (s_nseq s) (s_inputs s) (s_labels s) sh first train (s_eval s).

(* ---- ranges::shuffle(v, rng) : the random generator chooses, for a vector of length n, the list
   [rng n] of old positions in their new order. ---- *)
Definition rshuffle (rng : nat -> list nat) (v : list nat) : outcome (list nat) :=
  omap (lget v) (rng (length v)).

(* ---- src/data/TemporalComposite.cpp 12-17: unshuffle ---- *)
Definition base_unshuffle (s : Set_) : Set_ := with_shuffled s (seq 0 (s_size s)).

(* ---- src/data/CompositeForTemporalData.cpp 21-35: shuffle.
   inner while: [fuel] bounds iterations; reading past the flags is UB anyway *)
Fixpoint seq_shuffle_while (fuel : nat) (first : list bool) (sh : list nat) (j index : nat)
  : outcome (list nat * nat) :=
  match fuel with
  | O => UB
  | S k =>
    let* b := lget first index in
    if b then Ok (sh, j)
    else let* sh' := lset sh j index in
         seq_shuffle_while k first sh' (S j) (S index)
  end.
Definition seq_shuffle_step (first : list bool) (st : list nat * nat) (start : nat)
  : outcome (list nat * nat) :=
  let '(sh, j) := st in
  let* sh' := lset sh j start in
  seq_shuffle_while (S (length first)) first sh' (S j) (S start).

(* ---- src/data/CompositeForTimeSeries.cpp 34-76: shuffle ---- *)
Definition flags := (list nat * list bool * list bool)%type. (* shuffledIndexes, areFirst, needToTrain *)

(* lines 38-41 *)
Definition series_tail (size r : nat) (nt : list bool) : outcome (list bool) :=
  ofold (fun l k => lsetZ l (Z.of_nat size - (Z.of_nat r + 1) + Z.of_nat k) false) (seq 0 (r + 1)) nt.
(* lines 43-48 *)
Definition series_prefix (offset : nat) (st : flags) : outcome flags :=
  ofold (fun '(sh, fi, nt) i =>
           let* sh' := lset sh i i in
           let* nt' := lset nt i true in
           let* fi' := lset fi i false in
           Ok (sh', fi', nt')) (seq 0 offset) st.
(* lines 57-71: one block, written at rank iForIndex *)
Definition series_cell (r offset id iForIndex : nat) (st : flags) (j : nat) : outcome flags :=
  let '(sh, fi, nt) := st in
  let index := iForIndex * (r + 1) + j + offset in
  let* sh' := lset sh index (id * (r + 1) + j + offset) in
  let* fi' := lset fi index (if negb (Nat.eqb j 0) then false else true) in
  let* nt' := lset nt index (if Nat.eqb j r && Nat.leb offset index then true else false) in
  Ok (sh', fi', nt').
(* lines 52-74 *)
Definition series_block (size r offset : nat) (acc : flags * nat) (id : nat) : outcome (flags * nat) :=
  let '(st, iForIndex) := acc in
  let maxIndex := id * (r + 1) + r + offset in
  if Nat.ltb maxIndex size
  then let* st' := ofold (series_cell r offset id iForIndex) (seq 0 (r + 1)) st in
       Ok (st', S iForIndex)
  else Ok (st, iForIndex).
Definition series_shuffle (size r offset : nat) (ids : list nat) (st : flags) : outcome flags :=
  let '(sh, fi, nt) := st in
  let* nt1 := series_tail size r nt in
  let* st2 := series_prefix offset (sh, fi, nt1) in
  let '(sh2, fi2, nt2) := st2 in
  let* fi3 := lset fi2 0 true in
  let* res := ofold (series_block size r offset) ids ((sh2, fi3, nt2), 0) in
  Ok (fst res).

(* ---- Data::shuffle, src/data/Data.cpp 259-262, dispatching to the composites;
   CompositeForNonTemporalData.cpp 17-20 ---- *)
Definition shuffle (rng : nat -> list nat) (d : Data) : outcome Data :=
  let tr := d_train d in
  match d_temporal d with
  | TNon =>
      let* sh := rshuffle rng (s_shuffled tr) in
      Ok (with_temporal d TNon (with_shuffled tr sh))
  | TSeq starts =>
      let* starts' := rshuffle rng starts in
      let* st := ofold (seq_shuffle_step (s_first tr)) starts' (s_shuffled tr, 0) in
      Ok (with_temporal d (TSeq starts') (with_shuffled tr (fst st)))
  | TSeries r ids offset =>
      let* ids' := rshuffle rng ids in
      let* st := series_shuffle (s_size tr) r offset ids' (s_shuffled tr, s_first tr, s_train tr) in
      let '(sh, fi, nt) := st in
      Ok (with_temporal d (TSeries r ids' ((offset + 1) mod (r + 1))) (with_flags tr sh fi nt))
  end.

(* ---- Data::unshuffle, src/data/Data.cpp 264-267; CompositeForTimeSeries.cpp 78-84 ---- *)
Definition unshuffle (d : Data) : outcome Data :=
  let tr := base_unshuffle (d_train d) in
  match d_temporal d with
  | TSeries _ _ _ =>
      let* first := lset (repeat false (s_size tr)) 0 true in
      Ok (with_temporal d (d_temporal d) (with_flags tr (s_shuffled tr) first (repeat true (s_size tr))))
  | t => Ok (with_temporal d t tr)
  end.

(* ---- the four flag queries, src/data/Data.cpp 290-308 and composites ---- *)
Definition isFirstTraining (d : Data) (i : nat) : outcome bool :=
  match d_temporal d with TNon => Ok true | _ => lget (s_first (d_train d)) i end.
Definition isFirstTesting (d : Data) (i : nat) : outcome bool :=
  match d_temporal d with
  | TNon => Ok false
  | TSeq _ => lget (s_first (d_test d)) i
  | TSeries _ _ _ => Ok (Nat.eqb i 0)
  end.
Definition needToLearn (d : Data) (i : nat) : outcome bool :=
  match d_temporal d with TSeries _ _ _ => lget (s_train (d_train d)) i | _ => Ok true end.
Definition needToEvaluate (d : Data) (i : nat) : outcome bool :=
  match d_temporal d with TSeq _ => lget (s_eval (d_test d)) i | _ => Ok true end.

(* ---- batches: src/data/Data.cpp 310-332 and src/data/ProblemComposite.cpp 22-44.
   [resize] is vector::resize; [overwrite] is transform's output iterator: writing past the end is UB *)
Definition resize (l : list F) (n : nat) : list F := firstn n (l ++ repeat fzero (n - length l)).
Definition overwrite (buf vals : list F) : outcome (list F) :=
  if Nat.leb (length vals) (length buf) then Ok (vals ++ skipn (length vals) buf) else UB.

Definition batch_rows (rows : list (list F)) (sh : list nat) (width : nat) (buf : list F)
    (index batchSize : nat) : outcome (list F) :=
  let* i0 := lget sh index in
  let* data0 := lget rows i0 in
  let* i1 := lget sh (index + 1) in
  let* data1 := lget rows i1 in
  let* b := overwrite (resize buf width) (zipwith fadd data0 data1) in
  let* b := ofold (fun b j => let* i := lget sh j in
                              let* data := lget rows i in
                              overwrite b (zipwith fadd b data))
                  (seq (index + 2) (batchSize - 2)) b in
  Ok (map (fun x => fdiv x (fofnat batchSize)) b).

(* returns the row and the new content of the buffer member *)
Definition getTrainingData (d : Data) (index batchSize : nat) : outcome (list F * Data) :=
  let tr := d_train d in
  if Nat.leb batchSize 1
  then let* i := lget (s_shuffled tr) index in
       let* row := lget (s_inputs tr) i in Ok (row, d)
  else let* b := batch_rows (s_inputs tr) (s_shuffled tr) (d_sizeOfData d) (d_batchedData d) index batchSize in
       Ok (b, mkData (d_problem d) (d_nature d) (d_train d) (d_test d) (d_sizeOfData d) (d_numberOfLabels d)
                     (d_precision d) (d_separator d) (d_temporal d) b (d_batchedLabels d)).
Definition getTrainingOutputs (d : Data) (index batchSize : nat) : outcome (list F * Data) :=
  let tr := d_train d in
  if Nat.leb batchSize 1
  then let* i := lget (s_shuffled tr) index in
       let* row := lget (s_labels tr) i in Ok (row, d)
  else let* b := batch_rows (s_labels tr) (s_shuffled tr) (d_numberOfLabels d) (d_batchedLabels d) index batchSize in
       Ok (b, mkData (d_problem d) (d_nature d) (d_train d) (d_test d) (d_sizeOfData d) (d_numberOfLabels d)
                     (d_precision d) (d_separator d) (d_temporal d) (d_batchedData d) b).
Definition getTestingData (d : Data) (index : nat) : outcome (list F) := lget (s_inputs (d_test d)) index.
(* CompositeForClassification.cpp 42-45; Regression 18-21; Multiple 18-21 *)
Definition getTestingOutputs (d : Data) (index : nat) : outcome (list F) :=
  match d_problem d with
  | classification => Throw "getTestingOutputs should never be called."
  | _ => lget (s_labels (d_test d)) index
  end.

(* ---- CompositeForClassification.cpp 21-39: the first i with label[i] == 1 ---- *)
Fixpoint findOne (l : list F) (i : nat) : outcome nat :=
  match l with
  | [] => Throw "wrong label"
  | x :: t => if feqb x fone then Ok i else findOne t (S i)
  end.
Definition getTrainingLabel (d : Data) (index : nat) : outcome nat :=
  match d_problem d with
  | classification => let* l := lget (s_labels (d_train d)) index in findOne l 0
  | _ => Throw "getTrainingLabel should never be called."
  end.
Definition getTestingLabel (d : Data) (index : nat) : outcome nat :=
  match d_problem d with
  | classification => let* l := lget (s_labels (d_test d)) index in findOne l 0
  | _ => Throw "getTestingLabel should never be called."
  end.

(* ---- Data::normalize, src/data/Data.cpp 213-257 ---- *)
(* lines 222-235: running minimum and maximum of column j *)
Definition minmax_step (mm : F * F) (x : F) : F * F :=
  let '(mi, ma) := mm in
  if fltb x mi then (x, ma) else if fgtb x ma then (mi, x) else (mi, ma).
(* lines 241-243 / 247-249 *)
Definition rescale (mi difference lo hi x : F) : F :=
  let x1 := if negb (feqb difference fzero) then fdiv (fsub x mi) difference else x in
  fadd (fmul x1 (fsub hi lo)) lo.
Definition normalize_rows (j : nat) (g : F -> F) (rows : list (list F)) : outcome (list (list F)) :=
  omap (fun row => let* x := lget row j in lset row j (g x)) rows.
Definition normalize_col (lo hi : F) (st : list (list F) * list (list F)) (j : nat)
  : outcome (list (list F) * list (list F)) :=
  let '(tr, te) := st in
  let* col := omap (fun row => lget row j) tr in
  match col with
  | [] => UB                                 (* inputsTraining[0] *)
  | x0 :: rest =>
    let '(mi, ma) := fold_left minmax_step rest (x0, x0) in
    let g := rescale mi (fsub ma mi) lo hi in
    let* tr' := normalize_rows j g tr in
    let* te' := normalize_rows j g te in
    Ok (tr', te')
  end.
Definition with_inputs (s : Set_) (ins : list (list F)) : Set_ :=
  mkSet (s_size s) (s_nseq s) ins (s_labels s) (s_shuffled s) (s_first s) (s_train s) (s_eval s).
Definition normalize (lo hi : F) (d : Data) : outcome Data :=
  let* st := ofold (normalize_col lo hi) (seq 0 (d_sizeOfData d)) (s_inputs (d_train d), s_inputs (d_test d)) in
  Ok (with_sets d (with_inputs (d_train d) (fst st)) (with_inputs (d_test d) (snd st))).

(* ---- src/data/Data.cpp 385-415 ---- *)
Definition isRegression (p : problem) : bool := match p with regression => true | _ => false end.
Definition setPrecision (v : F) (d : Data) : outcome Data :=
  if isRegression (d_problem d)
  then Ok (mkData (d_problem d) (d_nature d) (d_train d) (d_test d) (d_sizeOfData d) (d_numberOfLabels d)
                  v (d_separator d) (d_temporal d) (d_batchedData d) (d_batchedLabels d))
  else Throw "Precision is only for regression problems.".
Definition getPrecision (d : Data) : outcome F :=
  if isRegression (d_problem d) then Ok (d_precision d)
  else Throw "Precision is only for regression problems.".
Definition setSeparator (v : F) (d : Data) : outcome Data :=
  if negb (isRegression (d_problem d))
  then Ok (mkData (d_problem d) (d_nature d) (d_train d) (d_test d) (d_sizeOfData d) (d_numberOfLabels d)
                  (d_precision d) v (d_temporal d) (d_batchedData d) (d_batchedLabels d))
  else Throw "Separator is only for classification and multiple classification problems.".
Definition getSeparator (d : Data) : outcome F :=
  if negb (isRegression (d_problem d)) then Ok (d_separator d)
  else Throw "Separator is only for classification and multiple classification problems.".

(* ---- histories of public calls that change the visiting order ---- *)
Inductive order_op := OpShuffle (rng : nat -> list nat) | OpUnshuffle.
Definition run_op (d : Data) (o : order_op) : outcome Data :=
  match o with OpShuffle rng => shuffle rng d | OpUnshuffle => unshuffle d end.
Definition run_ops (ops : list order_op) (d : Data) : outcome Data := ofold run_op ops d.

End Data.
