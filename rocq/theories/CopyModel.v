(* Model of the copy constructor of a network, with the pointers: StraightforwardNeuralNetwork.cpp 33-43, NeuralNetwork.cpp 20-30,
   Layer.tpp 13-22 and the clone() of every layer and optimizer. A network object holds pointers to its layers (unique_ptr) and to its
   optimizer (shared_ptr); every neuron (every gate of a GRU) holds a pointer to the optimizer (Neuron.hpp 37: shared_ptr), and every
   layer optimizer a pointer to its layer (LayerOptimizer.hpp 18). Neurons and layer optimizers are owned by their layer and are stored
   in its cell. The table of activation functions is shared and never written, and is not represented. *)
From Coq Require Import String.
From Verif Require Import Base Num ActModel NeuronModel LayerModel NetModel StatModel WaitModel DataModel FactoryModel TrainModel SaveModel SaveSpec.
Local Open Scope outcome_scope.

Section M.
Context {N : Num}.
Definition addr := nat.
Inductive PBody :=
| PFull (ns : list (Neuron * addr)) | PRec (ns : list (RNeuron * addr)) | PGru (ns : list (GNeuron * (addr * addr * addr)))
| PFilter (k : fkind) (f : Filter) (ns : list (Neuron * addr)).
Record PLayer := mkPL { pl_in : nat; pl_body : PBody; pl_opts : list (LOpt * addr) }.
(* the memory: the next free address, the optimizers and the layers alive *)
Record Heap := mkHeap { h_next : addr; h_opt : addr -> option SGD; h_layer : addr -> option PLayer }.
Definition set {A} (m : addr -> option A) (a : addr) (v : option A) : addr -> option A := fun b => if b =? a then v else m b.
Definition newOpt (h : Heap) (o : SGD) : addr * Heap := (h_next h, mkHeap (S (h_next h)) (set (h_opt h) (h_next h) (Some o)) (h_layer h)).
Definition newLayer (h : Heap) (l : addr -> PLayer) : addr * Heap := (h_next h, mkHeap (S (h_next h)) (h_opt h) (set (h_layer h) (h_next h) (Some (l (h_next h))))).
(* a network object: everything that is not behind a pointer *)
Record PSnn := mkPSnn { p_layers : list addr; p_opt : addr; p_nan : bool; p_trainings : Z;
  p_stats : Stats; p_want : bool; p_idle : bool; p_index : nat; p_epoch : Z; p_ntrain : nat; p_auto : bool; p_path : string }.

(* ---------------- the copy ---------------- *)
(* Layer.tpp 13-22: the neurons are copied with their pointers; LayerOptimizer clone(this): Dropout.cpp 24-35, L1Regularization.cpp 15-24,
   L2Regularization.cpp 15-24, ErrorMultiplier.cpp 14-23, Softmax.cpp 17-25. The derived classes copy their members. *)
Definition copyLayer (l : PLayer) (this : addr) : PLayer := mkPL (pl_in l) (pl_body l) (map (fun o => (fst o, this)) (pl_opts l)).
(* Neuron.cpp 78-81, GatedRecurrentUnit.cpp 114-119 on every neuron: FullyConnected.cpp 13-21, Recurrence.cpp 13-21, GruLayer.cpp 13-21,
   Convolution1D.cpp 44-52, Convolution2D.cpp 54-62, LocallyConnected1D.cpp 50-58, LocallyConnected2D.cpp 60-68; MaxPooling1D.cpp 52-55 and
   MaxPooling2D.cpp 62-65 do not call it *)
Definition setOptimizer (o : addr) (b : PBody) : PBody :=
  match b with
  | PFull ns => PFull (map (fun n => (fst n, o)) ns)
  | PRec ns => PRec (map (fun n => (fst n, o)) ns)
  | PGru ns => PGru (map (fun n => (fst n, (o, o, o))) ns)
  | PFilter k f ns => PFilter k f (match k with Pool1D | Pool2D => ns | _ => map (fun n => (fst n, o)) ns end)
  end.
Definition clone (h : Heap) (o : addr) (l : PLayer) : addr * Heap :=
  newLayer h (fun this => let c := copyLayer l this in mkPL (pl_in c) (setOptimizer o (pl_body c)) (pl_opts c)).
Fixpoint cloneLayers (h : Heap) (o : addr) (ls : list addr) : outcome (list addr * Heap) :=
  match ls with
  | [] => Ok ([], h)
  | a :: ls => match h_layer h a with
               | None => UB
               | Some l => let (b, h) := clone h o l in let* (bs, h) := cloneLayers h o ls in Ok (b :: bs, h)
               end
  end.
(* StatisticAnalysis.cpp 7-11, 33-45: clusters.resize, then every counter to zero *)
Definition initializeStats (s : Stats) (n : nat) : Stats :=
  startTesting (with_counters s (firstn n (st_clusters s ++ repeat zeroCluster (n - List.length (st_clusters s)))) (st_well s) (st_mis s)).
Definition pl_neurons (l : PLayer) : nat :=
  match pl_body l with PFull ns => List.length ns | PRec ns => List.length ns | PGru ns => List.length ns | PFilter _ _ ns => List.length ns end.
(* the check of isIdle at StraightforwardNeuralNetwork.cpp 36 is on the new object, where it is true *)
Definition copyP (h : Heap) (s : PSnn) : outcome (PSnn * Heap) :=
  match h_opt h (p_opt s) with
  | None => UB
  | Some v =>
    let (o, h) := newOpt h v in
    let* (ls, h) := cloneLayers h o (p_layers s) in
    match rev ls with
    | [] => UB
    | a :: _ => match h_layer h a with
                | None => UB
                | Some l => Ok (mkPSnn ls o (p_nan s) (p_trainings s) (initializeStats (p_stats s) (pl_neurons l)) false true (p_index s) (p_epoch s) (p_ntrain s) (p_auto s) (p_path s), h)
                end
    end
  end.

(* ---------------- a network in memory ---------------- *)
(* how the factories (LayerFactory.tpp: neurons.emplace_back(model, optimizer), LayerOptimizerFactory::build(.., this)) and Boost (tracked
   pointers) set the pointers of a layer at the address a, with the optimizer at the address o *)
Definition link (a o : addr) (l : Layer) : PLayer :=
  mkPL (l_in l)
    (match l_body l with
     | BFull ns => PFull (map (fun n => (n, o)) ns) | BRec ns => PRec (map (fun n => (n, o)) ns)
     | BGru ns => PGru (map (fun n => (n, (o, o, o))) ns) | BFilter k f ns => PFilter k f (map (fun n => (n, o)) ns)
     end) (map (fun x => (x, a)) (l_opts l)).
Definition strip (l : PLayer) : Layer :=
  mkLayer (pl_in l)
    (match pl_body l with PFull ns => BFull (map fst ns) | PRec ns => BRec (map fst ns) | PGru ns => BGru (map fst ns) | PFilter k f ns => BFilter k f (map fst ns) end)
    (map fst (pl_opts l)).
(* every pointer the layer uses is the expected one; a max pooling never uses the optimizer of its neurons (it has none) *)
Definition linked (a o : addr) (l : PLayer) : bool :=
  match pl_body l with
  | PFull ns => forallb (fun n => snd n =? o) ns | PRec ns => forallb (fun n => snd n =? o) ns
  | PGru ns => forallb (fun n => match snd n with (x, y, z) => (x =? o) && (y =? o) && (z =? o) end) ns
  | PFilter k _ ns => match k with Pool1D | Pool2D => true | _ => forallb (fun n => snd n =? o) ns end
  end && forallb (fun x => snd x =? a) (pl_opts l).
Fixpoint place (h : Heap) (o : addr) (ls : list Layer) : list addr * Heap :=
  match ls with [] => ([], h) | l :: ls => let (a, h) := newLayer h (fun a => link a o l) in let (r, h) := place h o ls in (a :: r, h) end.
Definition build (h : Heap) (s : Snn) : PSnn * Heap :=
  let n := sn_net s in let (o, h) := newOpt h (nn_opt n) in let (ls, h) := place h o (nn_layers n) in
  (mkPSnn ls o (nn_nan n) (nn_trainings n) (sn_stats s) (sn_want s) (sn_idle s) (sn_index s) (sn_epoch s) (sn_ntrain s) (sn_auto s) (sn_path s), h).

(* The members computeOutput, train, ... read and write the layers through these pointers. The functions of the other model files describe
   them for a network each of whose neurons uses the optimizer of the network, each of whose layer optimizers reads its own layer, and
   whose layers are all different: [fetch] is what they read (nothing for another network) and [store] what they write. No function
   writes to an optimizer (the members of StochasticGradientDescent are only set at construction). *)
Fixpoint fetchLayers (h : Heap) (o : addr) (ls : list addr) : option (list Layer) :=
  match ls with
  | [] => Some []
  | a :: ls => match h_layer h a, fetchLayers h o ls with Some l, Some r => if linked a o l then Some (strip l :: r) else None | _, _ => None end
  end.
Fixpoint distinct (l : list addr) : bool := match l with [] => true | a :: l => negb (existsb (Nat.eqb a) l) && distinct l end.
Definition fetch (h : Heap) (s : PSnn) : option Snn :=
  match h_opt h (p_opt s), fetchLayers h (p_opt s) (p_layers s) with
  | Some o, Some ls => if distinct (p_layers s)
                       then Some (mkSnn (mkNet ls o (p_nan s) (p_trainings s)) (p_stats s) (p_want s) (p_idle s) (p_index s) (p_epoch s) (p_ntrain s) (p_auto s) (p_path s))
                       else None
  | _, _ => None
  end.
Fixpoint storeLayers (h : Heap) (o : addr) (ls : list addr) (vs : list Layer) : Heap :=
  match ls, vs with
  | a :: ls, v :: vs => storeLayers (mkHeap (h_next h) (h_opt h) (set (h_layer h) a (Some (link a o v)))) o ls vs
  | _, _ => h
  end.
Definition store (h : Heap) (p : PSnn) (s : Snn) : PSnn * Heap :=
  (mkPSnn (p_layers p) (p_opt p) (nn_nan (sn_net s)) (nn_trainings (sn_net s)) (sn_stats s) (sn_want s) (sn_idle s) (sn_index s) (sn_epoch s) (sn_ntrain s) (sn_auto s) (sn_path s),
   storeLayers h (p_opt p) (p_layers p) (nn_layers (sn_net s))).
(* ~StraightforwardNeuralNetwork: the layers are deleted, and the optimizer with its last pointer (the network and its neurons) *)
Definition free (h : Heap) (p : PSnn) : Heap :=
  mkHeap (h_next h) (set (h_opt h) (p_opt p) None) (fold_right (fun a m => set m a None) (h_layer h) (p_layers p)).

(* ---------------- a program using several networks ---------------- *)
(* Networks are numbered in the order of their creation. *)
Inductive command :=
| New (draws : nat -> nat -> nat -> nat -> F) (masks : nat -> nat -> nat -> bool) (ds : list LDesc) (lr m : F)   (* StraightforwardNeuralNetwork nn(architecture, optimizer) *)
| Load (file : list token)                                                                                      (* loadFrom *)
| Copy (i : nat)                                                                                                (* StraightforwardNeuralNetwork nn(other) *)
| Use (i : nat) (a : action)                                                                                    (* computeOutput or train *)
| Delete (i : nat).                                                                                             (* ~StraightforwardNeuralNetwork *)
(* a use of one network; nothing is left when a training does not end *)
Definition act (s : Snn) (a : action) : outcome (seen * option Snn) :=
  match a with
  | Predict x reset => let* (o, s) := computeOutput s x reset in Ok (Outputs o, Some s)
  | Train fuel env w b f d =>
    match train fuel env w b f s d with
    | None => Ok (Unfinished, None)
    | Some (Throw m) => Throw m
    | Some UB => UB
    | Some (Ok r) => let st := sn_stats (r_snn r) in Ok (Trained (net_weights (sn_net (r_snn r))) (results st) (improved st) (r_data r) (presented (r_log r)), Some (r_snn r))
    end
  end.
Inductive said := Made | Saw (x : seen) | Deleted.
Fixpoint setAt {A} (l : list A) (i : nat) (v : A) : list A := match l, i with [], _ => [] | _ :: l, 0 => v :: l | a :: l, S i => a :: setAt l i v end.
(* the networks alive and the memory *)
Definition World := (list (option PSnn) * Heap)%type.
Definition made (w : list (option PSnn)) (p : PSnn * Heap) : outcome (said * option World) := Ok (Made, Some (w ++ [Some (fst p)], snd p)).
Definition pstep (c : command) (W : World) : outcome (said * option World) :=
  let (w, h) := W in
  match c with
  | New draws masks ds lr m => let* s := newSnn draws masks ds lr m in made w (build h s)
  | Load file => let* s := loadFrom file in made w (build h s)
  | Copy i => match nth_error w i with Some (Some p) => let* q := copyP h p in made w q | _ => UB end
  | Use i a => match nth_error w i with
               | Some (Some p) => match fetch h p with
                                  | Some s => let* (x, s) := act s a in
                                              Ok (Saw x, match s with Some s => let (p, h) := store h p s in Some (setAt w i (Some p), h) | None => None end)
                                  | None => UB
                                  end
               | _ => UB
               end
  | Delete i => match nth_error w i with Some (Some p) => Ok (Deleted, Some (setAt w i None, free h p)) | _ => UB end
  end.
(* what a program does, with the networks at the end (none when a training does not end) *)
Fixpoint prun (cs : list command) (W : World) : outcome (list said * option World) :=
  match cs with
  | [] => Ok ([], Some W)
  | c :: cs => let* (x, W) := pstep c W in match W with Some W => let* (xs, W) := prun cs W in Ok (x :: xs, W) | None => Ok ([x], None) end
  end.
Definition start : World := ([], mkHeap 0 (fun _ => None) (fun _ => None)).
End M.
