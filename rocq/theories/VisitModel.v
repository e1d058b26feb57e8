(** Model of the difference visitor, /repo/TestingFramework/tfMeasurementVisitor.cpp 41-124, and its
    header tfMeasurementVisitor.h 60-104. *)
From Verif Require Import Base Str MeasModel DiffModel.

(** tfMeasurementVisitor.cpp 119-123 *)
Definition AddPrefixesToNames (test baseline : meas) : meas * meas :=
  (mset_name test ($"Test " ++ mname test), mset_name baseline ($"Baseline " ++ mname baseline)).

(** [m.AcceptVisitor(differenceVisitor)]: the overload for plain text (101-113) or the general one (91-98; the
    intermediate classes forward to it, 45-83).  Result: the baseline and the test measurement afterwards, and what
    is written to the stream.  [<<] is [Print] (tfMeasurement.cpp 154-158). *)
Definition Difference (sc asserts : bool) (oob : option (bool -> Z -> Z)) (baseline m : meas) : meas * meas * res str :=
  let general :=
    let '(m', baseline') := AddPrefixesToNames m baseline in
    (baseline', m', a <-- Print m' ;; b <-- Print baseline' ;; Ok (a ++ [nl] ++ b ++ [nl])) in
  match m with
  | MD d =>
      match dcls d with
      | CPlain =>
          (baseline, m,
           text <-- Diff sc asserts oob (mcontent baseline) (mcontent m) ;;
           p <-- Print (MD (SetContent (SetAttributeName (new_dm CPlain) ($"Difference " ++ mname m)) text)) ;;
           Ok (p ++ [nl]))
      | _ => general
      end
  | MF _ => general
  end.
