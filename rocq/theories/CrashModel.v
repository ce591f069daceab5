(* Model of what is on the disk while a network is saved. StraightforwardNeuralNetwork.cpp 286-292: `ofstream ofs(filePath)` empties the file,
   then the archive writes its values one after the other; the stream has a buffer, so what has reached the disk when the process dies is
   some beginning of the file, which may stop in the middle of the text of a value.
   Simplifications: one file system without errors; a value whose text is cut short is any value at all (or none). *)
From Coq Require Import String.
From Verif Require Import Base Num ActModel NeuronModel LayerModel NetModel StatModel TrainModel SaveModel.

Section M.
Context {N : Num}.
(* the content of the file [path] once the events of a log are over; the only writes are those of saveSync (TrainModel), called by saveAs
   (StraightforwardNeuralNetwork.cpp 248-254) and by trainSync (cpp 111) *)
Definition written (path : string) (before : option (list token)) (log : list event) : option (list token) :=
  fold_left (fun c e => match e with Saved p s => if String.eqb p path then Some (file_of s) else c | _ => c end) log before.
(* basic_text_oprimitive.hpp: what may be left of the text of a value: the first digits of a natural number, the beginning of a text, of
   a decimal number (any number, in this model), of a negative number (any integer); a value of which nothing can be read is not in the list *)
Inductive cut_value : token -> token -> Prop :=
| cut_digits z k : (0 <= z)%Z -> cut_value (TZ z) (TZ (z / 10 ^ k))
| cut_negative z z' : (z < 0)%Z -> cut_value (TZ z) (TZ z')
| cut_number x y : cut_value (TF x) (TF y)
| cut_text a b : cut_value (TS a) (TS b).
(* StraightforwardNeuralNetwork.cpp 286-292: a file cut short: some of its first values, and perhaps what is left of the next one *)
Inductive cut_short (file : list token) : list token -> Prop :=
| cut_between p q : file = p ++ q -> q <> [] -> cut_short file p
| cut_inside p t q t' : file = p ++ t :: q -> cut_value t t' -> cut_short file (p ++ [t']).
(* the content of the file [path] when the process dies after [n] events of the log: before the next one, or during it if it writes the file *)
Inductive at_crash (path : string) (before : option (list token)) (log : list event) (n : nat) : option (list token) -> Prop :=
| crash_between : n <= List.length log -> at_crash path before log n (written path before (firstn n log))
| crash_saving s f : nth_error log n = Some (Saved path s) -> cut_short (file_of s) f -> at_crash path before log n (Some f).
(* StraightforwardNeuralNetwork.cpp 295-302: loading what is in the file, if there is one (an input archive on a file that cannot be opened
   fails to read the signature) *)
Definition load_path (c : option (list token)) : outcome Snn := match c with Some f => loadFrom f | None => Throw "input stream error" end.
End M.
