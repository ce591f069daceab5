(* The same programs where every network is a value of its own: nothing is shared. *)
From Coq Require Import String.
From Verif Require Import Base Num ActModel NeuronModel LayerModel NetModel StatModel WaitModel DataModel FactoryModel TrainModel SaveModel SaveSpec CopyModel.
Local Open Scope outcome_scope.

Section S.
Context {N : Num}.
(* what a copy is: the same layers, optimizer, results and settings; the counters of the last evaluation are zero and it is not training *)
Definition copySnn (s : Snn) : outcome Snn :=
  let* n := net_numberOfOutputs (sn_net s) in
  let st := sn_stats s in
  Ok (mkSnn (sn_net s)
        (mkStats (repeat zeroCluster n) fzero fzero (st_rate st) (st_wrate st) (st_f1 st) (st_mae st) (st_rmse st) (st_rateMax st) (st_wrateMax st) (st_f1Max st)
           (st_maeMin st) (st_rmseMin st) (st_rateBetter st) (st_wrateBetter st) (st_f1Better st) (st_maeBetter st) (st_rmseBetter st))
        false true (sn_index s) (sn_epoch s) (sn_ntrain s) (sn_auto s) (sn_path s)).
Definition Values := list (option Snn).
Definition vmade (w : Values) (s : Snn) : outcome (said * option Values) := Ok (Made, Some (w ++ [Some s])).
Definition vstep (c : command) (w : Values) : outcome (said * option Values) :=
  match c with
  | New draws masks ds lr m => let* s := newSnn draws masks ds lr m in vmade w s
  | Load file => let* s := loadFrom file in vmade w s
  | Copy i => match nth_error w i with Some (Some s) => let* s := copySnn s in vmade w s | _ => UB end
  | Use i a => match nth_error w i with
               | Some (Some s) => let* (x, s) := act s a in Ok (Saw x, match s with Some s => Some (setAt w i (Some s)) | None => None end)
               | _ => UB
               end
  | Delete i => match nth_error w i with Some (Some s) => Ok (Deleted, Some (setAt w i None)) | _ => UB end
  end.
Fixpoint vrun (cs : list command) (w : Values) : outcome (list said * option Values) :=
  match cs with
  | [] => Ok ([], Some w)
  | c :: cs => let* (x, w) := vstep c w in match w with Some w => let* (xs, w) := vrun cs w in Ok (x :: xs, w) | None => Ok ([x], None) end
  end.
(* the networks of a program, read through their pointers *)
Definition read (W : World) : list (option Snn) := map (fun p => match p with Some p => fetch (snd W) p | None => None end) (fst W).
End S.
