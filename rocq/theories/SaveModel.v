(* Model of saving and loading: the `serialize` members of every class (include/snn/neural_network/**/*.hpp) and
   StraightforwardNeuralNetwork.cpp 286-302, on a Boost text archive (src/external_library/boost_1_80_0_minimal).
   An archive is a sequence of primitive values. Simplifications: the headers Boost adds (signature, class versions, item
   versions, tracking of classes that are never shared) are left out; a class name is the number of its kind; the shared optimizer
   is written in full at its first occurrence and as a reference afterwards (Boost's tracking of shared_ptr); writing to the disk
   does not fail, and the file read is a file written before. *)
From Coq Require Import String.
From Verif Require Import Base Num ActModel NeuronModel LayerModel NetModel StatModel TrainModel.

Section M.
Context {N : Num}.

Inductive token := TF (x : F) | TZ (z : Z) | TB (b : bool) | TS (s : string).

(* ---------------- writing ---------------- *)
(* the argument tells whether the optimizer has already been written *)
Definition W := bool -> list token * bool.
Definition wnil : W := fun seen => ([], seen).
Definition w1 (t : token) : W := fun seen => ([t], seen).
Definition wseq (a b : W) : W := fun seen => let (x, seen) := a seen in let (y, seen) := b seen in (x ++ y, seen).
Infix ";;" := wseq (at level 60, right associativity).
Definition wF (x : F) : W := w1 (TF x).
Definition wN (n : nat) : W := w1 (TZ (Z.of_nat n)).
Definition wZ (z : Z) : W := w1 (TZ z).
Definition wB (b : bool) : W := w1 (TB b).
(* boost/serialization/vector.hpp: the number of elements, then the elements *)
Definition wlist {A} (w : A -> W) (l : list A) : W := wN (List.length l) ;; fold_right (fun a r => w a ;; r) wnil l.

(* ---------------- reading ---------------- *)
(* the values left, and the optimizer if it has already been read *)
Definition archive : Type := list token * option SGD.
Definition R (A : Type) := archive -> outcome (A * archive).
Definition rret {A} (a : A) : R A := fun s => Ok (a, s).
Definition rbind {A B} (r : R A) (k : A -> R B) : R B := fun s => match r s with Ok (a, s) => k a s | Throw m => Throw m | UB => UB end.
Notation "x <- r ; k" := (rbind r (fun x => k)) (at level 61, r at level 60, right associativity).
Definition fail {A} : R A := fun _ => Throw "input stream error".
Definition next : R token := fun s => match fst s with t :: ts => Ok (t, (ts, snd s)) | [] => Throw "input stream error" end.
(* boost/archive/basic_text_iprimitive.hpp 86-94: `is >> t` or an exception; operator>> of a float reads no infinity and no NaN *)
Definition ffinite (x : F) : bool := feqb (fsub x x) fzero.
Definition rF : R F := t <- next; match t with TF x => if ffinite x then rret x else fail | _ => fail end.
Definition rZ : R Z := t <- next; match t with TZ z => rret z | _ => fail end.
Definition rN : R nat := z <- rZ; rret (Z.to_nat z).
Definition rB : R bool := t <- next; match t with TB b => rret b | _ => fail end.
Definition rS : R string := t <- next; match t with TS s => rret s | _ => fail end.
Fixpoint rtimes {A} (n : nat) (r : R A) : R (list A) :=
  match n with O => rret [] | S n => a <- r; l <- rtimes n r; rret (a :: l) end.
Definition rlist {A} (r : R A) : R (list A) := n <- rN; rtimes n r.

(* ---------------- the classes ---------------- *)
(* shared_ptr<NeuralNetworkOptimizer>; StochasticGradientDescent.hpp 39-45 *)
Definition wOpt (o : SGD) : W := fun seen => if seen then ([TZ 1], true) else ([TZ 0; TF (o_lr o); TF (o_m o)], true).
Definition rOpt : R SGD :=
  k <- rZ; match k with
           | 0%Z => lr <- rF; m <- rF; (fun s => Ok (mkSGD lr m, (fst s, Some (mkSGD lr m))))
           | _ => fun s => match snd s with Some o => Ok (o, s) | None => Throw "invalid class" end
           end.
(* CircularData.hpp 34-39 *)
Definition wCirc (c : Circ) : W := wlist (wlist wF) (q_data c) ;; wN (q_get c) ;; wN (q_push c).
Definition rCirc : R Circ := q <- rlist (rlist rF); g <- rN; p <- rN; rret (mkCirc q p g).
(* the enum of ActivationFunction.hpp 8-17 *)
Definition act_code (a : activation) : Z :=
  match a with a_sigmoid => 0 | a_iSigmoid => 1 | a_tanh => 2 | a_ReLU => 3 | a_GELU => 4 | a_gaussian => 5 | a_identity => 6 end%Z.
Definition act_of (z : Z) : option activation :=
  match z with 0 => Some a_sigmoid | 1 => Some a_iSigmoid | 2 => Some a_tanh | 3 => Some a_ReLU | 4 => Some a_GELU | 5 => Some a_gaussian | 6 => Some a_identity | _ => None end%Z.
(* Neuron.hpp 62-75; the optimizer read is the one of the network (the table of shared pointers has one) *)
Definition wNeuron (o : SGD) (n : Neuron) : W :=
  wOpt o ;; wN (n_in n) ;; wN (n_batch n) ;; wlist wF (n_w n) ;; wF (n_bias n) ;; wCirc (n_prev n) ;; wCirc (n_last n)
  ;; wlist wF (n_err n) ;; wF (n_sum n) ;; wZ (act_code (n_act n)).
Definition rNeuron : R Neuron :=
  _ <- rOpt; i <- rN; b <- rN; w <- rlist rF; bias <- rF; p <- rCirc; l <- rCirc; e <- rlist rF; s <- rF; a <- rZ;
  match act_of a with Some a => rret (mkNeuron i b w bias p l e s a) | None => fun _ => Throw "activation" end.
(* RecurrentNeuron.hpp 41-49 *)
Definition wRNeuron (o : SGD) (r : RNeuron) : W := wNeuron o (r_n r) ;; wF (r_lastOut r) ;; wF (r_prevOut r) ;; wF (r_recErr r) ;; wF (r_prevSum r).
Definition rRNeuron : R RNeuron := n <- rNeuron; a <- rF; b <- rF; c <- rF; d <- rF; rret (mkRNeuron n a b c d).
(* GatedRecurrentUnit.hpp 57-67: the member errors is not written and is empty in a new object *)
Definition wGNeuron (o : SGD) (g : GNeuron) : W :=
  wN (g_in g) ;; wF (g_prevOut g) ;; wF (g_recErr g) ;; wF (g_updOut g) ;; wF (g_outOut g) ;; wRNeuron o (g_reset g) ;; wRNeuron o (g_update g) ;; wRNeuron o (g_output g).
Definition rGNeuron : R GNeuron :=
  i <- rN; a <- rF; b <- rF; c <- rF; d <- rF; x <- rRNeuron; y <- rRNeuron; z <- rRNeuron; rret (mkGNeuron i [] a b c d x y z).
(* LayerOptimizer.hpp 38-41 (the layer, already in the archive: its number [l]), Dropout.hpp 42-49, L1Regularization.hpp 41-46,
   L2Regularization.hpp 39-44, ErrorMultiplier.hpp 38-43, Softmax.hpp 39-43 *)
Definition wLOpt (l : nat) (o : LOpt) : W :=
  match o with
  | ODropout v r m => wZ 0 ;; wN l ;; wF v ;; wF r ;; wlist wB m
  | OL1 v => wZ 1 ;; wN l ;; wF v
  | OL2 v => wZ 2 ;; wN l ;; wF v
  | OMult v => wZ 3 ;; wN l ;; wF v
  | OSoftmax => wZ 4 ;; wN l
  end.
Definition rLOpt (l : nat) : R LOpt :=
  k <- rZ; l' <- rN;
  if negb (l' =? l) then fail else
  match k with
  | 0 => v <- rF; r <- rF; m <- rlist rB; rret (ODropout v r m)
  | 1 => v <- rF; rret (OL1 v)
  | 2 => v <- rF; rret (OL2 v)
  | 3 => v <- rF; rret (OMult v)
  | 4 => rret OSoftmax
  | _ => fail
  end%Z.
(* FilterLayer.hpp 46-59, MaxPooling1D.hpp 41-47, MaxPooling2D.hpp 41-47 *)
Definition is_pool (k : fkind) : bool := match k with Pool1D | Pool2D => true | _ => false end.
Definition wFilter (k : fkind) (f : Filter) : W :=
  wN (f_filters f) ;; wN (f_kernels f) ;; wN (f_kpf f) ;; wN (f_npf f) ;; wN (f_ksize f) ;; wN (f_nin f)
  ;; wlist wN (f_shapeIn f) ;; wlist wN (f_shapeOut f) ;; wlist (wlist wZ) (f_index f)
  ;; (if is_pool k then wN (f_outputs f) ;; wlist wZ (f_maxIndex f) else wnil).
Definition rFilter (k : fkind) : R Filter :=
  a <- rN; b <- rN; c <- rN; d <- rN; e <- rN; f <- rN; g <- rlist rN; h <- rlist rN; i <- rlist (rlist rZ);
  if is_pool k then j <- rN; m <- rlist rZ; rret (mkFilter a b c d e f g h i j m) else rret (mkFilter a b c d e f g h i 0 []).
Definition fkind_code (k : fkind) : Z := match k with Conv1D => 3 | Conv2D => 4 | Loc1D => 5 | Loc2D => 6 | Pool1D => 7 | Pool2D => 8 end%Z.
Definition fkind_of (z : Z) : option fkind := match z with 3 => Some Conv1D | 4 => Some Conv2D | 5 => Some Loc1D | 6 => Some Loc2D | 7 => Some Pool1D | 8 => Some Pool2D | _ => None end%Z.
(* the class of the layer (unique_ptr<BaseLayer>), then Layer.hpp 67-80, then the members of the derived class *)
Definition wLayer (o : SGD) (l : nat) (a : Layer) : W :=
  match l_body a with
  | BFull ns => wZ 0 ;; wN (l_in a) ;; wlist (wNeuron o) ns ;; wlist (wLOpt l) (l_opts a)
  | BRec ns => wZ 1 ;; wN (l_in a) ;; wlist (wRNeuron o) ns ;; wlist (wLOpt l) (l_opts a)
  | BGru ns => wZ 2 ;; wN (l_in a) ;; wlist (wGNeuron o) ns ;; wlist (wLOpt l) (l_opts a)
  | BFilter k f ns => wZ (fkind_code k) ;; wN (l_in a) ;; wlist (wNeuron o) ns ;; wlist (wLOpt l) (l_opts a) ;; wFilter k f
  end.
Definition rLayer (l : nat) : R Layer :=
  c <- rZ; i <- rN;
  match c with
  | 0 => ns <- rlist rNeuron; os <- rlist (rLOpt l); rret (mkLayer i (BFull ns) os)
  | 1 => ns <- rlist rRNeuron; os <- rlist (rLOpt l); rret (mkLayer i (BRec ns) os)
  | 2 => ns <- rlist rGNeuron; os <- rlist (rLOpt l); rret (mkLayer i (BGru ns) os)
  | _ => match fkind_of c with
         | Some k => ns <- rlist rNeuron; os <- rlist (rLOpt l); f <- rFilter k; rret (mkLayer i (BFilter k f ns) os)
         | None => fail
         end
  end%Z.
(* layers are numbered in the order of the vector *)
Fixpoint wLayers (o : SGD) (l : nat) (ls : list Layer) : W := match ls with [] => wnil | a :: t => wLayer o l a ;; wLayers o (S l) t end.
Fixpoint rLayers (l n : nat) : R (list Layer) := match n with O => rret [] | S n => a <- rLayer l; t <- rLayers (S l) n; rret (a :: t) end.

(* StatisticAnalysis.hpp 20-28: totalError is not written and is 0 in a new object *)
Definition wCluster (c : Cluster) : W := wF (c_tp c) ;; wF (c_tn c) ;; wF (c_fp c) ;; wF (c_fn c).
Definition rCluster : R Cluster := a <- rF; b <- rF; c <- rF; d <- rF; rret (mkCluster a b c d fzero).
(* StatisticAnalysis.hpp 104-126 *)
Definition wStats (s : Stats) : W :=
  wlist wCluster (st_clusters s) ;; wF (st_well s) ;; wF (st_mis s) ;; wF (st_rate s) ;; wF (st_wrate s) ;; wF (st_f1 s) ;; wF (st_mae s) ;; wF (st_rmse s)
  ;; wF (st_rateMax s) ;; wF (st_wrateMax s) ;; wF (st_f1Max s) ;; wF (st_maeMin s) ;; wF (st_rmseMin s)
  ;; wB (st_rateBetter s) ;; wB (st_wrateBetter s) ;; wB (st_f1Better s) ;; wB (st_maeBetter s) ;; wB (st_rmseBetter s).
Definition rStats : R Stats :=
  cl <- rlist rCluster; a <- rF; b <- rF; c <- rF; d <- rF; e <- rF; f <- rF; g <- rF; h <- rF; i <- rF; j <- rF; k <- rF; l <- rF;
  m <- rB; n <- rB; o <- rB; p <- rB; q <- rB; rret (mkStats cl a b c d e f g h i j k l m n o p q).
(* NeuralNetwork.hpp 82-102 (version 1) and StraightforwardNeuralNetwork.hpp 125-137: outputNan is not written and is false in a new object *)
Definition wSnn (s : Snn) : W :=
  wStats (sn_stats s) ;; wZ (nn_trainings (sn_net s))
  ;; wN (List.length (nn_layers (sn_net s))) ;; wLayers (nn_opt (sn_net s)) 0 (nn_layers (sn_net s)) ;; wOpt (nn_opt (sn_net s))
  ;; w1 (TS (sn_path s)) ;; wB (sn_auto s) ;; wB (sn_want s) ;; wN (sn_index s) ;; wB (sn_idle s) ;; wZ (sn_epoch s) ;; wN (sn_ntrain s).
Definition rSnn : R Snn :=
  st <- rStats; t <- rZ; n <- rN; ls <- rLayers 0 n; o <- rOpt;
  p <- rS; auto <- rB; want <- rB; i <- rN; idle <- rB; e <- rZ; k <- rN;
  rret (mkSnn (mkNet ls o false t) st want idle i e k auto p).

(* StraightforwardNeuralNetwork.cpp 286-292 and 295-302: a file is the list of the values of the archive *)
Definition file_of (s : Snn) : list token := fst (wSnn s false).
Definition loadFrom (file : list token) : outcome Snn := match rSnn (file, None) with Ok (s, _) => Ok s | Throw m => Throw m | UB => UB end.
End M.
