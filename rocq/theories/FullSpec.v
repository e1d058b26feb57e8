(** What a run of a test does that uses the whole protected interface (specification for C71).
    [element], [line], [first_lines], [last_line]: LineSpec.  [extra]: ReportSpec.  [found], [same_kind], [opened]: RegSpec.  [names_baseline]: ApiSpec. *)
From Coq Require Import Floats.SpecFloat.
From Verif Require Import Base Str Dec PathModel MeasModel DiffModel RegModel RegSpec LineSpec ReportSpec ApiModel ApiSpec FullModel.

(** an object as an element, under this name *)
Definition printed (m : meas) (name : str) : str :=
  let text t := if mesc m then escaped t else t in
  match m with
  | MD d => $"<" ++ DATA ++ $" name=" ++ q ++ name ++ q ++ $" type=" ++ q ++ type_of (dcls d) ++ q ++
            extra ($"encoding") (denc d) ++ extra ($"compression") (dcomp d) ++ $">" ++ text (dcontent d) ++ $"</" ++ DATA ++ $">"
  | MF g => $"<" ++ FILE ++ $" name=" ++ q ++ name ++ q ++ $" type=" ++ q ++ ftype g ++ q ++ $">" ++ text (ffile g) ++ $"</" ++ FILE ++ $">"
  end.
Definition plain_object (m : meas) : bool := match m with MD d => cls_eqb (dcls d) CPlain | MF _ => false end.
(** the same object, perhaps with its data decoded *)
Definition as_before (m m' : meas) : Prop :=
  match m, m' with
  | MD d, MD d' => d' = set_data d (ddata d')
  | MF g, MF g' => g' = g
  | _, _ => False
  end.
Definition renamed (m : meas) (prefix : str) : meas := mset_name m (prefix ++ mname m).

(** What the driver goes by at some time: tolerance, files, search directories, expected value, file names. *)
Record situation := At { at_tol : spec_float; at_files : store; at_dirs : list str; at_expected : Z; at_in : str; at_out : str }.
(** [o]: identity of the output file *)
Definition appended (o : option str) (text : str) (f : store) : store :=
  match text, o with
  | [], _ | _, None => f
  | _, Some k => match f k with Some (FFile r w b) => upd f k (Some (FFile r w (b ++ text))) | _ => f end
  end.
Definition wrote (o : option str) (text : str) (a : situation) : situation :=
  At (at_tol a) (appended o text (at_files a)) (at_dirs a) (at_expected a) (at_in a) (at_out a).
(** [reading]: the baseline has been opened *)
Definition comparing (e : env) (reading : bool) (a : situation) : bool := reading || names_baseline e (at_files a) (at_dirs a) (at_in a).

(** [m], [b]: the object and its partner, [m']: the object when they have been compared, with this outcome *)
Inductive reaction (e : env) : meas -> meas -> meas -> res bool -> Z + exn -> Z -> str -> meas -> Prop :=
| react_same m b m' : reaction e m b m' (Ok true) (inl 1%Z) 0 [] m'
| react_failed m b m' x : reaction e m b m' (Throw x) (inr x) 0 [] m'
| react_text m b m' d : plain_object m = true -> Diff (e_sc e) (e_asserts e) (e_oob e) (mcontent b) (mcontent m) = Ok d ->
    reaction e m b m' (Ok false) (inl 0%Z) 1 (element DATA ($"Difference " ++ mname m) ($"text/plain") d ++ [nl]) m'
| react_values m b m' : plain_object m = false ->
    reaction e m b m' (Ok false) (inl 0%Z) 1
      (printed m ($"Test " ++ mname m) ++ [nl] ++ printed b ($"Baseline " ++ mname b) ++ [nl]) (renamed m' ($"Test ")).
(** Comparison of an object with its partner in the baseline, if there is one: answer, number of mismatches, text written, object afterwards. *)
Inductive judged (e : env) (a : situation) : option meas -> meas -> bool -> Z + exn -> Z -> str -> meas -> Prop :=
| judged_alone p m tolerant : (forall b, p = Some b -> same_kind b m = false) ->
    judged e a p m tolerant (inl 1%Z) 1 (printed m ($"Unmatched " ++ mname m) ++ [nl]) (renamed m ($"Unmatched "))
| judged_partner b m (tolerant : bool) b2 m' v r n text after : same_kind b m = true ->
    let b' := found e (at_dirs a) (at_files a) b m in
    Compare (e_sc e) (sources e (at_files a)) (e_io e) (if tolerant then SetTolerance new_cmp (at_tol a) else new_cmp) b' m = (b2, m', v) ->
    as_before m m' -> reaction e m b' m' v r n text after ->
    judged e a (Some b) m tolerant r n text after.

(** How a test unfolds: situation, test, what is left of the baseline; then the number of mismatches, the text written, the situation and the outcome at the end. *)
Inductive performs (e : env) (o : option str) (reading : bool) : situation -> fprog -> list meas -> Z -> str -> situation -> res Z -> Prop :=
| p_return a z bs : performs e o reading a (FReturn z) bs 0 [] a (Ok z)
| p_raise a x bs : performs e o reading a (FRaise x) bs 0 [] a (Throw x)
| p_record a c k bs t n text a' out : comparing e reading a = false -> line (e_io e) c t ->
    performs e o reading (wrote o (t ++ [nl]) a) (k (inl 0%Z)) bs n text a' out ->
    performs e o reading a (FMeasure c k) bs n (t ++ [nl] ++ text) a' out
| p_measure a c k bs r n1 t after n text a' out : comparing e reading a = true ->
    judged e a (hd_error bs) (meas_of (e_io e) true c) (tolerant_of c) r n1 t after ->
    performs e o reading (wrote o t a) (k r) (tl bs) n text a' out ->
    performs e o reading a (FMeasure c k) bs (n1 + n) (t ++ text) a' out
| p_compare a m tolerant k bs r n1 t after n text a' out :
    judged e a (hd_error bs) m tolerant r n1 t after ->
    performs e o reading (wrote o t a) (k r after) (tl bs) n text a' out ->
    performs e o reading a (FCompare m tolerant k) bs (n1 + n) (t ++ text) a' out
| p_print a t k bs n text a' out : performs e o reading (wrote o t a) k bs n text a' out -> performs e o reading a (FPrint t k) bs n (t ++ text) a' out
| p_tolerance a t k bs n text a' out :
    performs e o reading (At t (at_files a) (at_dirs a) (at_expected a) (at_in a) (at_out a)) k bs n text a' out ->
    performs e o reading a (FSetRelativeTolerance t k) bs n text a' out
| p_expected a z k bs n text a' out :
    performs e o reading (At (at_tol a) (at_files a) (at_dirs a) z (at_in a) (at_out a)) k bs n text a' out ->
    performs e o reading a (FSetExpectedReturn z k) bs n text a' out
| p_in a i k bs n text a' out :
    performs e o reading (At (at_tol a) (at_files a) (at_dirs a) (at_expected a) i (at_out a)) k bs n text a' out ->
    performs e o reading a (FSetInFileName i k) bs n text a' out
| p_out a i k bs n text a' out :
    performs e o reading (At (at_tol a) (at_files a) (at_dirs a) (at_expected a) (at_in a) i) k bs n text a' out ->
    performs e o reading a (FSetOutFileName i k) bs n text a' out
| p_dirs a l k bs n text a' out :
    performs e o reading (At (at_tol a) (at_files a) l (at_expected a) (at_in a) (at_out a)) k bs n text a' out ->
    performs e o reading a (FSetInFileSearchPath l k) bs n text a' out
| p_prepend a d k bs n text a' out :
    performs e o reading (At (at_tol a) (at_files a) (d :: at_dirs a) (at_expected a) (at_in a) (at_out a)) k bs n text a' out ->
    performs e o reading a (FPrependInFileSearchPath d k) bs n text a' out
| p_write a path b k bs n text a' out :
    performs e o reading (At (at_tol a) (write_file e (at_files a) path b) (at_dirs a) (at_expected a) (at_in a) (at_out a)) k bs n text a' out ->
    performs e o reading a (FWriteFile path b k) bs n text a' out
| p_look a k bs n text a' out :
    performs e o reading a (k (View (comparing e reading a) (at_expected a) (at_tol a) (at_in a) (at_out a) (at_dirs a) (node_at e (at_files a)))) bs n text a' out ->
    performs e o reading a (FLook k) bs n text a' out.

(** what appears on the screen, [o]: as above *)
Definition to_screen (o : option str) (text : str) : str := match o with None => text | Some _ => [] end.
(** what ends the output: a recording that ended normally is finished *)
Definition closing (out : res Z) (still_comparing : bool) : str := match out with Ok _ => if still_comparing then [] else last_line | _ => [] end.
(** The value Main returns: [named]: at the end a baseline can be found (by name, or it is still open). *)
Definition outcome_status (out : res Z) (expected n : Z) (named still_comparing : bool) : Z :=
  match out with
  | Ok r => if (r =? expected)%Z then (if named then n else 0%Z) else r
  | _ => if (-1 =? expected)%Z then (if still_comparing then (n + 1)%Z else 0%Z) else (-1)%Z
  end.
