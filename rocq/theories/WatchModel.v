(** Model of itk::tf::FilterWatcher, /repo/itktf/itktfFilterWatcher.h: an observer that writes a text for the events of a filter.
    Environment: the filter ([itk::ProcessObject]) sends events to its observers in the order of the events; the commands that the
    watcher registers (51-62) stay registered for the life of the filter and call the watcher's functions. *)
From Verif Require Import Base Str Dec PathModel MeasModel.
Local Open Scope Z_scope.

(** what happens to the filter and its watcher; [Destroyed]: the watcher is destroyed (65) *)
Inductive happening := Started | Ended | Progressed | Iterated | Aborted | Destroyed.

(** members (106-111): m_Steps is only ever 0; m_Iterations is not initialised by the constructor (36-39) *)
Record watcher := Watcher { w_class : str; w_comment : str; w_iterations : option Z; w_alive : bool; w_os : str }.
(** 36-39; [comment] is a C string *)
Definition new_watcher (cls comment os : str) : watcher := Watcher cls (cstr comment) None true os.

Definition tell (w : watcher) (text : str) : watcher := Watcher (w_class w) (w_comment w) (w_iterations w) (w_alive w) (w_os w ++ text).
Definition set_iterations (w : watcher) (n : Z) : watcher := Watcher (w_class w) (w_comment w) (Some n) (w_alive w) (w_os w).
Definition dquote1 : str := [chr 34].
(** 80-87 *)
Definition StartFilter (w : watcher) : res watcher :=
  let w := set_iterations w 0 in
  Ok (tell w ($"-------- Start " ++ cstr (w_class w) ++ $" " ++ dquote1 ++ w_comment w ++ dquote1 ++ $" ")).
(** 91-96 *)
Definition EndFilter (w : watcher) : res watcher :=
  Ok (tell w ([nl] ++ $"-------- End " ++ cstr (w_class w) ++ $" " ++ dquote1 ++ w_comment w ++ dquote1 ++ $" " ++ [nl])).
(** 67 *)
Definition ShowProgress (w : watcher) : res watcher := Ok w.
(** 69-72 *)
Definition ShowAbort (w : watcher) : res watcher := Ok (tell w ([nl] ++ $"      ABORT" ++ [nl])).
(** 74-78: reading an uninitialised [int] and overflow are undefined *)
Definition ShowIteration (w : watcher) : res watcher :=
  let w := tell w ($" # ") in
  match w_iterations w with
  | None => UB
  | Some n => if n =? INT_MAX then UB else Ok (set_iterations w (n + 1))
  end.
(** 57-61: which function is called for which event; after its destruction the watcher's memory is gone *)
Definition happens (w : watcher) (h : happening) : res watcher :=
  if w_alive w then
    match h with
    | Started => StartFilter w
    | Ended => EndFilter w
    | Progressed => ShowProgress w
    | Iterated => ShowIteration w
    | Aborted => ShowAbort w
    | Destroyed => Ok (Watcher (w_class w) (w_comment w) (w_iterations w) false (w_os w))
    end
  else UB.
Fixpoint watch (w : watcher) (l : list happening) : res watcher :=
  match l with [] => Ok w | h :: l' => w <-- happens w h ;; watch w l' end.
(** the text written *)
Definition watched (cls comment : str) (l : list happening) : res str := w <-- watch (new_watcher cls comment []) l ;; Ok (w_os w).
