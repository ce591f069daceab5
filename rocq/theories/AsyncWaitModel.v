(* Model of StraightforwardNeuralNetwork::waitFor (src/neural_network/StraightforwardNeuralNetwork.cpp 215-229), called by the thread
   of the caller while the thread of startTrainingAsync runs. The machine is that of AsyncModel.v, whose caller is given its calls one by
   one, plus the member epoch (lines 92 and 98) and the loop of waitFor. The accuracy and the error read by waitFor at each instant are
   arbitrary; so is the clock. Simplified: the assignments of lines 92 and 94 are one step; epoch is an unbounded integer. *)
From Verif Require Import Base Num ToolsModel WaitModel AsyncModel.
Local Open Scope Z_scope.

Section M.
Context {N : Num}.

(* what the caller reads besides epoch: getGlobalClusteringRate, getMeanAbsoluteError and the clock (in ms), at each instant *)
Record Look := mkLook { l_acc : nat -> F; l_mae : nat -> F; l_clock : nat -> Z }.

(* the calls: those of AsyncModel, and waitFor *)
Inductive wcall := Api (c : call) | WaitFor (w : Wait).

(* inside waitFor: the criterion, the time of startClock (line 217), and whether hasNan() (line 218) has been found false in this turn
   of the loop *)
Record pause := mkPause { p_wait : Wait; p_start : Z; p_looked : bool }.

Record wstate := mkW {
  base : state;
  epoch : Z;               (* StraightforwardNeuralNetwork.hpp 23 *)
  batches : nat;           (* not in the code: the batches learned by the thread since it was created *)
  waiting : option pause;  (* the caller is inside waitFor *)
  calls : list wcall       (* the calls still to make *)
}.

(* StraightforwardNeuralNetwork.cpp 92 and 98: epoch when trainSync goes from p to p' *)
Definition epoch_after (p p' : wpc) (e : Z) : Z :=
  match p, p' with
  | w_begin, _ => 0                     (* line 92 *)
  | w_outer, _ => e
  | _, w_outer => e + 1                 (* line 98: epoch = 1 the first time (epoch was 0), then epoch++ *)
  | _, _ => e
  end.
(* lines 110-114: a batch has been learned *)
Definition batches_after (p : wpc) (n : nat) : nat := match p with w_step _ => S n | _ => n end.

(* one step of the thread: AsyncModel.worker_step, with epoch *)
Definition wt_worker (env : Env) (t : nat) (s : wstate) : wstate :=
  let b := worker_step env t (base s) in
  match worker (base s), worker b with
  | Some p, Some p' => if dead b then mkW b (epoch s) (batches s) (waiting s) (calls s)
                       else mkW b (epoch_after p p' (epoch s)) (batches_after p (batches s)) (waiting s) (calls s)
  | _, _ => mkW b (epoch s) (batches s) (waiting s) (calls s)
  end.

(* one step of the caller: inside waitFor, lines 217-228; inside another call, AsyncModel.caller_step, with epoch (train() runs trainSync
   on the thread of the caller) *)
Definition wt_caller (env : Env) (look : Look) (t : nat) (s : wstate) : wstate :=
  match pc (base s), todo (base s) with
  | c_free, [] =>
      match waiting s with
      | None => match calls s with
                | [] => s
                | Api c :: cs => let b := base s in mkW (mkState (fl b) (worker b) c_free [c] (answers b) (dead b)) (epoch s) (batches s) None cs
                | WaitFor w :: cs => mkW (base s) (epoch s) (batches s) (Some (mkPause w (l_clock look t) false)) cs  (* line 217 *)
                end
      | Some p =>
          if p_looked p
          then (* lines 222-227 *)
               if isOver (p_wait p) (l_clock look t - p_start p) (epoch s) (l_acc look t) (l_mae look t)
               then mkW (base s) (epoch s) (batches s) None (calls s)
               else mkW (base s) (epoch s) (batches s) (Some (mkPause (p_wait p) (p_start p) false)) (calls s)
          else (* line 218 *)
               if nan (fl (base s))
               then mkW (base s) (epoch s) (batches s) None (calls s)
               else mkW (base s) (epoch s) (batches s) (Some (mkPause (p_wait p) (p_start p) true)) (calls s)
      end
  | q, _ => let b := caller_step env t (base s) in
            mkW b (match q, pc b with c_run p, c_run p' => epoch_after p p' (epoch s) | _, _ => epoch s end)
                (match q with c_start2 => 0%nat | _ => batches s end) (waiting s) (calls s)
  end.
Definition wt_step (env : Env) (look : Look) (t : nat) (worker_turn : bool) (s : wstate) : wstate :=
  if dead (base s) then s else if worker_turn then wt_worker env t s else wt_caller env look t s.

(* a network on which nothing is running, whose member epoch is e (0 for a new one, anything for a loaded one) *)
Definition wt_fresh (e : Z) (prog : list wcall) : wstate := mkW (fresh []) e 0 None prog.
(* the state before the instant t, under a schedule: [true] at t means that the thread of the training moves at t *)
Fixpoint wt_at (env : Env) (look : Look) (sched : nat -> bool) (e : Z) (prog : list wcall) (t : nat) : wstate :=
  match t with O => wt_fresh e prog | S t => wt_step env look t (sched t) (wt_at env look sched e prog t) end.
End M.
