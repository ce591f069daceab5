(* Model of the two threads of src/neural_network/StraightforwardNeuralNetwork.cpp: the caller's thread, which makes a sequence of API
   calls on one network, and the thread started by startTrainingAsync. The steps of the two threads are interleaved one at a time by an
   arbitrary schedule (sequential consistency: the C++ members are plain bools, so concurrent accesses are formally a data race).
   What a training computes is left out; kept are the flags wantToStopTraining, isIdle, hasNan, the loops over samples, batches and
   epochs, the checks between them, and the points where an exception may leave the training (the Env says what happens at each
   instant). The data are assumed to pass validData. One caller thread. Data and weights are in TrainModel.v. *)
From Verif Require Import Base.

(* what may happen at each instant: the step produces an abnormal output, an exception leaves the step, the stopping criterion of
   train() is met, the epoch that ends is followed by an evaluation; the number of test samples, of batches in an epoch, and
   whether a training starts with an evaluation *)
Record Env := mkEnv { e_nan : nat -> bool; e_throw : nat -> bool; e_over : nat -> bool; e_eval : nat -> bool; e_tests : nat; e_batches : nat; e_first : bool }.

(* the shared members, StraightforwardNeuralNetwork.hpp 20-21 and NeuralNetwork.hpp (outputNan) *)
Record flags := mkFlags { want : bool; idle : bool; nan : bool }.
Definition set_want (v : bool) (f : flags) : flags := mkFlags v (idle f) (nan f).
Definition set_idle (v : bool) (f : flags) : flags := mkFlags (want f) v (nan f).
Definition set_nan (v : bool) (f : flags) : flags := mkFlags (want f) (idle f) v.

(* positions in trainSync, StraightforwardNeuralNetwork.cpp 88-123, evaluate 125-154, resetTrainingValues 195-200 *)
Inductive wpc :=
| w_begin           (* before line 94 *)
| w_cleared         (* before line 95 *)
| w_eval (k : nat)  (* in evaluate, k samples left *)
| w_evnan1 | w_evnan2  (* in evaluate, before the second and third assignment of resetTrainingValues, called because of hasNan *)
| w_outer           (* line 98, before continueTraining *)
| w_inner (i : nat) (* line 101, before the condition, at the i-th batch *)
| w_step (i : nat)  (* lines 104-115 *)
| w_reset1 | w_reset2  (* line 121, before the second and third assignment of resetTrainingValues *)
| w_done.

(* continueTraining, StraightforwardNeuralNetwork.cpp 202-213; the criterion of startTrainingAsync is Wait(), which is never over (C12) *)
Definition continues (env : Env) (sync : bool) (t : nat) (f : flags) : bool := negb (want f) && negb (sync && e_over env t) && negb (nan f).

(* one step of trainSync at the instant t *)
Definition wstep (env : Env) (sync : bool) (t : nat) (pc : wpc) (f : flags) : outcome (wpc * flags) :=
  match pc with
  | w_begin => Ok (w_cleared, set_want false f)
  | w_cleared => Ok (if e_first env then w_eval (e_tests env) else w_outer, set_idle false f)
  | w_eval 0 => Ok (w_outer, f)
  | w_eval (S k) => if nan f then Ok (w_evnan1, f) else if e_throw env t then Throw "exception in evaluate" else Ok (w_eval k, set_nan (e_nan env t) f)
  | w_evnan1 => Ok (w_evnan2, set_want false f)
  | w_evnan2 => Ok (w_outer, set_idle true f)
  | w_outer => Ok (if continues env sync t f then w_inner 0 else w_reset1, f)
  | w_inner i => Ok (if (i <? e_batches env) && continues env sync t f then w_step i else if e_eval env t then w_eval (e_tests env) else w_outer, f)
  | w_step i => if e_throw env t then Throw "exception in trainOnce" else Ok (w_inner (S i), set_nan (nan f || e_nan env t) f)
  | w_reset1 => Ok (w_reset2, set_want false f)
  | w_reset2 => Ok (w_done, set_idle true f)
  | w_done => Ok (w_done, f)
  end.

(* the API calls of the caller and what they give back *)
Inductive call := Start | Stop | Train | Save | IsTraining.
Inductive answer := Returned | Threw | Says (b : bool).

(* positions of the caller *)
Inductive cpc :=
| c_free                     (* between two calls *)
| c_start0 | c_start1 | c_start2  (* startTrainingAsync 71-77: before line 186, before the join, before the creation of the thread *)
| c_stop0 | c_stop1          (* stopTrainingAsync 184-193: before line 186, before the join *)
| c_train0 | c_train1 | c_train2 | c_run (p : wpc)  (* train 79-86: before the check, before line 186, before the join, in trainSync *)
| c_save0 | c_save1          (* saveAs 248-253: before the check, writing the file *)
| c_ask.                     (* isTraining 66-69 *)

Record state := mkState {
  fl : flags;
  worker : option wpc;       (* the std::thread: None if not joinable *)
  pc : cpc; todo : list call; answers : list (call * answer);
  dead : bool                (* an exception left the thread: std::terminate *)
}.
Definition go (s : state) (p : cpc) : state := mkState (fl s) (worker s) p (todo s) (answers s) (dead s).
Definition with_fl (s : state) (f : flags) : state := mkState f (worker s) (pc s) (todo s) (answers s) (dead s).
Definition with_worker (s : state) (w : option wpc) : state := mkState (fl s) w (pc s) (todo s) (answers s) (dead s).
Definition give (s : state) (c : call) (a : answer) : state := mkState (fl s) (worker s) c_free (todo s) (answers s ++ [(c, a)]) (dead s).
Definition entry (c : call) : cpc := match c with Start => c_start0 | Stop => c_stop0 | Train => c_train0 | Save => c_save0 | IsTraining => c_ask end.
(* thread.joinable() / thread.join(), lines 187-191: None while the thread runs *)
Definition joined (s : state) : option state :=
  match worker s with None => Some s | Some w_done => Some (with_worker s None) | Some _ => None end.

(* one step of the caller; a thread that waits in join() stays where it is *)
Definition caller_step (env : Env) (t : nat) (s : state) : state :=
  match pc s with
  | c_free => match todo s with [] => s | c :: cs => mkState (fl s) (worker s) (entry c) cs (answers s) (dead s) end
  | c_start0 => go (with_fl s (set_want true (fl s))) c_start1
  | c_start1 => match joined s with Some s => go s c_start2 | None => s end
  | c_start2 => give (with_worker s (Some w_begin)) Start Returned
  | c_stop0 => go (with_fl s (set_want true (fl s))) c_stop1
  | c_stop1 => match joined s with Some s => give s Stop Returned | None => s end
  | c_train0 => if idle (fl s) then go s c_train1 else give s Train Threw
  | c_train1 => go (with_fl s (set_want true (fl s))) c_train2
  | c_train2 => match joined s with Some s => go s (c_run w_begin) | None => s end
  | c_run w_done => give s Train Returned
  | c_run p => match wstep env true t p (fl s) with Ok (p, f) => go (with_fl s f) (c_run p) | _ => give s Train Threw end
  | c_save0 => if idle (fl s) then go s c_save1 else give s Save Threw
  | c_save1 => give s Save Returned
  | c_ask => give s IsTraining (Says (negb (idle (fl s))))
  end.
(* one step of the training thread *)
Definition worker_step (env : Env) (t : nat) (s : state) : state :=
  match worker s with
  | None => s
  | Some p => match wstep env false t p (fl s) with
              | Ok (p, f) => with_worker (with_fl s f) (Some p)
              | _ => mkState (fl s) (worker s) (pc s) (todo s) (answers s) true
              end
  end.
Definition step (env : Env) (t : nat) (worker_turn : bool) (s : state) : state :=
  if dead s then s else if worker_turn then worker_step env t s else caller_step env t s.

(* a new (or idle) network and a list of calls to make *)
Definition fresh (prog : list call) : state := mkState (mkFlags false true false) None c_free prog [] false.
(* the state before the instant t, under a schedule: [true] at t means that the thread of the training moves at t *)
Fixpoint at_ (env : Env) (sched : nat -> bool) (prog : list call) (t : nat) : state :=
  match t with O => fresh prog | S t => step env t (sched t) (at_ env sched prog t) end.
