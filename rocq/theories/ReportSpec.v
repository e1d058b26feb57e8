(** What a comparing run writes, spelled out (specification for C66).  [element], [escaped]: LineSpec.
    [Diff]: the line difference of two texts, cf. C09-C12.  [kind_of_moment], [same_value], [found]: RegSpec. *)
From Coq Require Import Floats.SpecFloat.
From Verif Require Import Base Str MeasModel DiffModel RegModel RegSpec LineSpec.

(** an attribute that is left out when its value is "none" *)
Definition extra (attribute value : str) : str :=
  if eqs value ($"none") then [] else $" " ++ attribute ++ $"=" ++ q ++ value ++ q.
(** a measurement as an element, under this name *)
Definition shown (m : meas) (name : str) : str :=
  match m with
  | MD d => $"<" ++ DATA ++ $" name=" ++ q ++ name ++ q ++ $" type=" ++ q ++ type_of (dcls d) ++ q ++
            extra ($"encoding") (denc d) ++ extra ($"compression") (dcomp d) ++ $">" ++ escaped (dcontent d) ++ $"</" ++ DATA ++ $">"
  | MF g => element FILE name (ftype g) (ffile g)
  end.
Definition plain_text (c : call) : option str := match c with TextPlain t _ => Some t | _ => None end.
(** The report on one measurement; first argument: its partner in the baseline. *)
Inductive report (e : env) (dirs : list str) : option meas -> moment -> str -> Prop :=
| report_same b mo : kind_of_moment e b mo = true -> same_value e dirs b mo = true -> report e dirs (Some b) mo []
| report_alone p c t f : let m := meas_of (e_io e) true c in
    (forall b, p = Some b -> kind_of_moment e b (c, t, f) = false) ->
    report e dirs p (c, t, f) (shown m ($"Unmatched " ++ mname m) ++ [nl])
| report_text b c t f text d : let m := meas_of (e_io e) true c in
    kind_of_moment e b (c, t, f) = true -> same_value e dirs b (c, t, f) = false -> plain_text c = Some text ->
    Diff (e_sc e) (e_asserts e) (e_oob e) (mcontent b) text = Ok d ->
    report e dirs (Some b) (c, t, f) (element DATA ($"Difference " ++ mname m) ($"text/plain") d ++ [nl])
| report_values b c t f : let m := meas_of (e_io e) true c in
    kind_of_moment e b (c, t, f) = true -> same_value e dirs b (c, t, f) = false -> plain_text c = None ->
    report e dirs (Some b) (c, t, f)
      (shown m ($"Test " ++ mname m) ++ [nl] ++ shown (found e dirs f b m) ($"Baseline " ++ mname b) ++ [nl]).
(** one report after the other; the partner of the n-th measurement is the n-th of the baseline *)
Inductive reports (e : env) (dirs : list str) : list meas -> list moment -> str -> Prop :=
| reports_end bs : reports e dirs bs [] []
| reports_next bs mo ms t ts : report e dirs (hd_error bs) mo t -> reports e dirs (tl bs) ms ts -> reports e dirs bs (mo :: ms) (t ++ ts).
