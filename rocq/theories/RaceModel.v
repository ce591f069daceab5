(* Model of a network used by two threads: the training thread calls trainOnce again and again while the caller calls
   computeOutput (StraightforwardNeuralNetwork.cpp 46-49 has no lock and does not look at isIdle).
   One step is one call of a method of a layer: the threads interleave between the layers. Real threads interleave more finely
   (and then the behaviour is undefined in C++): what is refuted here is reachable there too; what is proved is about this grain.
   Memory is sequentially consistent. *)
From Verif Require Import Base Num ActModel NeuronModel LayerModel NetModel.

Section M.
Context {N : Num}.
Local Open Scope outcome_scope.

(* the arguments of a call of trainOnce, and the draws of its dropouts *)
Record TJob := mkTJob { tj_rand : nat -> nat -> nat -> bool; tj_in : list F; tj_out : list F; tj_reset : bool }.
(* where the training thread is: NeuralNetwork.cpp 54-58, 73-84, 86-98 *)
Inductive tpc :=
| T_idle
| T_forward (i : nat) (v : list F) (j : TJob)   (* about to call layers[i]->outputForTraining(v), or at line 80 when i is the number of layers *)
| T_backward (i : nat) (e : list F)             (* about to call layers[i]->backOutput(e), or layers[0]->train(e) *)
| T_count.                                      (* about to do numberOfTraining++ *)
(* where the caller is: NeuralNetwork.cpp 60-71 *)
Inductive ppc := P_idle | P_forward (i : nat) (v : list F) (reset : bool).
Record Race := mkRace { ra_net : Net; ra_t : tpc; ra_tjobs : list TJob; ra_p : ppc; ra_pjobs : list (list F * bool); ra_results : list (list F) }.

Definition set_layer (n : Net) (i : nat) (l : Layer) : Net := mkNet (replace (nn_layers n) i l) (nn_opt n) (nn_nan n) (nn_trainings n).
Definition flag (n : Net) (v : list F) : Net := mkNet (nn_layers n) (nn_opt n) (nn_nan n || anyAbnormal v) (nn_trainings n).
(* one step of the training thread *)
Definition tstep (s : Race) : outcome Race :=
  let n := ra_net s in
  let go n t jobs := Ok (mkRace n t jobs (ra_p s) (ra_pjobs s) (ra_results s)) in
  match ra_t s with
  | T_idle => match ra_tjobs s with [] => Ok s | j :: t => match nn_layers n with [] => UB | _ => go n (T_forward 0 (tj_in j) j) t end end
  | T_forward i v j =>
    match nth_error (nn_layers n) i with
    | Some l => let* (v', l') := layer_outputForTraining (tj_rand j i) l v (tj_reset j) in go (set_layer n i l') (T_forward (S i) v' j) (ra_tjobs s)
    | None =>                                                              (* lines 80-81, 90-92 *)
      let n := flag n v in
      if nn_nan n then go n T_count (ra_tjobs s) else
      match nn_layers n with
      | [] => UB
      | first :: rest =>
        let* errors := calculateError (getNumberOfNeurons (last rest first)) v (tj_out j) in
        go n (T_backward (List.length rest) errors) (ra_tjobs s)
      end
    end
  | T_backward 0 e =>
    match nth_error (nn_layers n) 0 with
    | Some l => let* l' := layer_train (nn_opt n) l e in go (set_layer n 0 l') T_count (ra_tjobs s)
    | None => UB
    end
  | T_backward (S i) e =>
    match nth_error (nn_layers n) (S i) with
    | Some l => let* (e', l') := layer_backOutput (nn_opt n) l e in go (set_layer n (S i) l') (T_backward i e') (ra_tjobs s)
    | None => UB
    end
  | T_count => go (mkNet (nn_layers n) (nn_opt n) (nn_nan n) (nn_trainings n + 1)) T_idle (ra_tjobs s)
  end.
(* one step of the caller *)
Definition pstep (s : Race) : outcome Race :=
  let n := ra_net s in
  let go n p jobs res := Ok (mkRace n (ra_t s) (ra_tjobs s) p jobs res) in
  match ra_p s with
  | P_idle => match ra_pjobs s with [] => Ok s | (x, r) :: t => match nn_layers n with [] => UB | _ => go n (P_forward 0 x r) t (ra_results s) end end
  | P_forward i v r =>
    match nth_error (nn_layers n) i with
    | Some l => let* (v', l') := layer_output l v r in go (set_layer n i l') (P_forward (S i) v' r) (ra_pjobs s) (ra_results s)
    | None => go (flag n v) P_idle (ra_pjobs s) (ra_results s ++ [v])
    end
  end.
(* a schedule says whose turn it is: true for the training thread *)
Definition run (sched : list bool) (s : Race) : outcome Race := ofold (fun s who => if (who : bool) then tstep s else pstep s) sched s.
Definition start (n : Net) (tj : list TJob) (pj : list (list F * bool)) : Race := mkRace n T_idle tj P_idle pj [].
(* both threads have done all their calls *)
Definition over (s : Race) : Prop := ra_t s = T_idle /\ ra_tjobs s = [] /\ ra_p s = P_idle /\ ra_pjobs s = [].
End M.
