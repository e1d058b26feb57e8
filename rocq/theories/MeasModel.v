(** Model of TestingFramework/tfMeasurement.{h,cpp}.

    Objects are records; a member function that modifies its object returns the modified record.
    The functions that can throw after having modified the object (the decoded-data cache) return the
    object in every outcome.  Environment parameters:
    - [sc]: plain char is signed (see B64Model);
    - [fs : str -> source]: what is found under a (C string) name: nothing that can be opened for reading, a regular file with its
      bytes, or a directory, which can be opened but not read;
    - [numio]: the C++ library's conversions between floating point values and decimal text.
    Simplifications: [malloc] never fails, and [malloc(0)] returns a non-null pointer (glibc);
    diagnostics on [std::cerr] are in ErrModel; the two objects of a comparison are distinct. *)
From Coq Require Import Floats.SpecFloat.
From Verif Require Import Base Str B64Model Dec.

(** tfMeasurement.cpp 49-56: the concrete data classes and their [type] strings *)
Inductive cls := CPlain | CString | CInt | CFloat | CDouble | CBool.
Definition type_of (c : cls) : str :=
  match c with
  | CInt => $"numeric/integer"
  | CFloat => $"numeric/float"
  | CDouble => $"numeric/double"
  | CBool => $"numeric/boolean"
  | CString => $"text/string"
  | CPlain => $"text/plain"
  end.
Definition cls_eqb (a b : cls) : bool :=
  match a, b with
  | CPlain, CPlain | CString, CString | CInt, CInt | CFloat, CFloat | CDouble, CDouble | CBool, CBool => true
  | _, _ => false
  end.
(** the class derives from [NumericData] (tfMeasurement.h 405-640) *)
Definition is_numeric (c : cls) : bool :=
  match c with CPlain | CString => false | _ => true end.

(** tfMeasurement.cpp 58-60, 63 *)
Definition default_enc : str := $"none".
Definition default_comp : str := $"none".
Definition data_elem : str := $"DartMeasurement".
Definition file_elem : str := $"DartMeasurementFile".

(** tfMeasurement.cpp 65-80; [None] is the null pointer *)
Definition CreateDataMeasurement (t : str) : option cls :=
  if eqs t ($"text/plain") then Some CPlain
  else if eqs t ($"text/string") then Some CString
  else if eqs t ($"numeric/integer") then Some CInt
  else if eqs t ($"numeric/float") then Some CFloat
  else if eqs t ($"numeric/double") then Some CDouble
  else if eqs t ($"numeric/boolean") then Some CBool
  else None.

(** A [DataMeasurement] object: name, applyEscapeSequences, dynamic class, encoding, compression,
    content, and the [data] cache ([None] = null pointer; its length is [dataSize]). *)
Record dm := Dm { dname : str; desc : bool; dcls : cls; denc : str; dcomp : str;
                  dcontent : str; ddata : option (list cell) }.
(** A [MeasurementFile] object. *)
Record mf := Mf { fname : str; fesc : bool; ftype : str; ffile : str }.
Inductive meas := MD (d : dm) | MF (f : mf).

(** default constructors: tfMeasurement.cpp 82, 331-334 and tfMeasurement.h 160, 325, 356 ... *)
Definition new_dm (c : cls) : dm := Dm [] true c default_enc default_comp [] None.
Definition new_mf : mf := Mf [] true [] [].

(** tfMeasurement.cpp 411-416 *)
Definition DeleteContentAsData (d : dm) : dm :=
  Dm (dname d) (desc d) (dcls d) (denc d) (dcomp d) (dcontent d) None.
Definition set_data (d : dm) (v : option (list cell)) : dm :=
  Dm (dname d) (desc d) (dcls d) (denc d) (dcomp d) (dcontent d) v.
(** tfMeasurement.h 342, 423 *)
Definition SetContent (d : dm) (s : str) : dm :=
  DeleteContentAsData (Dm (dname d) (desc d) (dcls d) (denc d) (dcomp d) s (ddata d)).
(** tfMeasurement.cpp 86-88 *)
Definition SetAttributeName (d : dm) (n : str) : dm :=
  Dm n (desc d) (dcls d) (denc d) (dcomp d) (dcontent d) (ddata d).
(** tfMeasurement.cpp 354-356, 366-368 *)
Definition SetAttributeEncoding (d : dm) (e : str) : dm :=
  Dm (dname d) (desc d) (dcls d) e (dcomp d) (dcontent d) (ddata d).
Definition SetAttributeCompression (d : dm) (e : str) : dm :=
  Dm (dname d) (desc d) (dcls d) (denc d) e (dcontent d) (ddata d).
(** Copying: tfMeasurement.cpp 90-98, 336-347, 500-509 and the inline versions of tfMeasurement.h.
    Both the copy constructor and the assignment leave the target without cached data. *)
Definition Copy (d : dm) : dm := DeleteContentAsData d.

(** tfMeasurement.cpp 379-409.  The exception of [Decode] leaves [data] allocated. *)
Definition UpdateContentAsData (sc : bool) (d : dm) : dm * res unit :=
  let d := DeleteContentAsData d in
  if eqs (denc d) ($"none") then (d, Ok tt)
  else if eqs (denc d) ($"base64") then
    match IsBase64 sc default_opts (dcontent d) with
    | Ok 0 => (d, Ok tt)
    | Ok n =>
        let '(mem, r) := Decode sc default_opts (dcontent d) (repeat None n) in
        (set_data d (Some mem),
         match r with Ok _ => Ok tt | Throw e => Throw e | UB => UB | Abort => Abort | Hang => Hang end)
    | Throw e => (d, Throw e) | UB => (d, UB) | Abort => (d, Abort) | Hang => (d, Hang)
    end
  else (d, Ok tt).

(** [if (!data) UpdateContentAsData();] of 419-420 and 428-429 *)
Definition ensure_data (sc : bool) (d : dm) : dm * res unit :=
  match ddata d with Some _ => (d, Ok tt) | None => UpdateContentAsData sc d end.
(** the bytes seen through the returned pointer (data, or the content's characters) *)
Definition data_view (d : dm) : list cell :=
  match ddata d with Some l => l | None => map Some (dcontent d) end.
(** tfMeasurement.cpp 418-425 *)
Definition GetContentAsData (sc : bool) (d : dm) : dm * res (list cell) :=
  let '(d, r) := ensure_data sc d in (d, _ <-- r ;; Ok (data_view d)).
(** tfMeasurement.cpp 427-434 *)
Definition GetContentAsDataSize (sc : bool) (d : dm) : dm * res nat :=
  let '(d, r) := ensure_data sc d in (d, _ <-- r ;; Ok (length (data_view d))).

(** tfMeasurement.cpp 436-464.  With compression the data is deleted before it is encoded:
    [Encode(0, 0)]. *)
Definition SetContentAsData (d : dm) (bytes : str) : dm * res unit :=
  let d := set_data (DeleteContentAsData d) (Some (map Some bytes)) in
  let '(d, now) := if eqs (dcomp d) ($"none") then (d, bytes) else (DeleteContentAsData d, []) in
  if eqs (denc d) ($"none") then (d, Ok tt)
  else if eqs (denc d) ($"base64") then
    match Encode default_opts now with
    | Ok t => (SetContent d t, Ok tt)
    | Throw e => (d, Throw e) | UB => (d, UB) | Abort => (d, Abort) | Hang => (d, Hang)
    end
  else (d, Ok tt).

(** [memcmp(a, b, n) == 0]; reading past either object or comparing indeterminate bytes is [UB]. *)
Fixpoint memeq (n : nat) (a b : list cell) : res bool :=
  match n with
  | 0 => Ok true
  | S n' =>
      match a, b with
      | Some x :: a', Some y :: b' => r <-- memeq n' a' b' ;; Ok (eqc x y && r)
      | _, _ => UB
      end
  end.

(** tfMeasurement.cpp 472-484 when the other object is a [DataMeasurement] too.  The operands of [==]
    and the arguments of [memcmp] are evaluated from left to right. *)
Definition data_IsEqual (sc : bool) (this td : dm) : dm * dm * res bool :=
  if eqs (dname this) (dname td) && eqs (type_of (dcls this)) (type_of (dcls td)) then
    let '(this, r1) := GetContentAsDataSize sc this in
    match r1 with
    | Ok n1 =>
      let '(td, r2) := GetContentAsDataSize sc td in
      match r2 with
      | Ok n2 =>
        if n1 =? n2 then
          let '(this, r3) := GetContentAsData sc this in
          let '(td, r4) := GetContentAsData sc td in
          let '(this, r5) := GetContentAsDataSize sc this in
          (this, td, a <-- r3 ;; b <-- r4 ;; n <-- r5 ;; memeq n a b)
        else (this, td, Ok false)
      | Throw e => (this, td, Throw e) | UB => (this, td, UB) | Abort => (this, td, Abort) | Hang => (this, td, Hang)
      end
    | Throw e => (this, td, Throw e) | UB => (this, td, UB) | Abort => (this, td, Abort) | Hang => (this, td, Hang)
    end
  else (this, td, Ok false).

Inductive source := Missing | Bytes (bytes : str) | Unreadable.
(** tfMeasurement.cpp 231-300.  The two ways of reading differ only in the translation of line ends,
    which POSIX does not do.  A directory: [bad_alloc] or the [runtime_error] of 292-294, by the size its file system reports. *)
Definition Load (fs : str -> source) (f : mf) : res dm :=
  match fs (cstr (ffile f)) with
  | Missing => Ok (new_dm CPlain)
  | Unreadable => Throw ExnRuntime
  | Bytes bytes =>
      let d := new_dm (match CreateDataMeasurement (ftype f) with Some c => c | None => CPlain end) in
      let '(d, r) := SetContentAsData d bytes in
      _ <-- r ;; Ok (SetAttributeName d (fname f))
  end.

Definition mname (m : meas) : str := match m with MD d => dname d | MF f => fname f end.
Definition mtype (m : meas) : str := match m with MD d => type_of (dcls d) | MF f => ftype f end.
Definition mcontent (m : meas) : str := match m with MD d => dcontent d | MF f => ffile f end.
Definition mesc (m : meas) : bool := match m with MD d => desc d | MF f => fesc f end.
Definition melem (m : meas) : str := match m with MD _ => data_elem | MF _ => file_elem end.
Definition mset_name (m : meas) (n : str) : meas :=
  match m with MD d => MD (SetAttributeName d n) | MF f => MF (Mf n (fesc f) (ftype f) (ffile f)) end.

(** tfMeasurement.cpp 302-315 with a data measurement [m] *)
Definition file_IsEqual_data (sc : bool) (fs : str -> source) (this : mf) (m : dm) : dm * res bool :=
  if negb (eqs (fname this) (dname m)) || negb (eqs (ftype this) (type_of (dcls m))) then (m, Ok false)
  else match Load fs this with
       | Ok d => let '(m, _, r) := data_IsEqual sc m d in (m, r)
       | Throw e => (m, Throw e) | UB => (m, UB) | Abort => (m, Abort) | Hang => (m, Hang)
       end.
(** the same with a file measurement [m]: [m == *dm] loads the second file *)
Definition file_IsEqual_file (sc : bool) (fs : str -> source) (this m : mf) : res bool :=
  if negb (eqs (fname this) (fname m)) || negb (eqs (ftype this) (ftype m)) then Ok false
  else d <-- Load fs this ;; snd (file_IsEqual_data sc fs m d).

(** [Measurement::operator==] (150-152) and the virtual [IsEqual]s *)
Definition IsEqual (sc : bool) (fs : str -> source) (this m : meas) : meas * meas * res bool :=
  match this, m with
  | MD a, MD b => let '(a, b, r) := data_IsEqual sc a b in (MD a, MD b, r)
  | MD a, MF f => let '(a, r) := file_IsEqual_data sc fs f a in (MD a, MF f, r)      (* 476-477 *)
  | MF f, MD b => let '(b, r) := file_IsEqual_data sc fs f b in (MF f, MD b, r)
  | MF f, MF g => (MF f, MF g, file_IsEqual_file sc fs f g)
  end.

(** * Printing *)
(** [str.find_first_of("&<>", pos)] *)
Definition special (c : ascii) : bool := eqc c "&" || eqc c "<" || eqc c ">".
Fixpoint find_special (s : str) (pos : nat) : option nat :=
  match s, pos with
  | [], _ => None
  | x :: s', 0 => if special x then Some 0 else option_map S (find_special s' 0)
  | _ :: s', S p => option_map S (find_special s' p)
  end.
(** [result.append(str, j, n)]; [n = None] stands for the huge count [npos - j] *)
Definition append_sub (result s : str) (j : nat) (n : option nat) : res str :=
  if length s <? j then Throw ExnRuntime
  else Ok (result ++ match n with Some n => substr s j n | None => skipn j s end).
(** tfMeasurement.cpp 120-141; the early return of 124-125 would need [npos = length] and is dropped *)
Fixpoint escape_loop (fuel : nat) (s result : str) (j : nat) (i : option nat) : res str :=
  match fuel with
  | 0 => Hang
  | S fuel' =>
      match i with
      | Some i =>
          result <-- append_sub result s j (Some (i - j)) ;;
          c <-- rd i s ;;
          let result :=
            if eqc c "&" then result ++ $"&amp;"
            else if eqc c "<" then result ++ $"&lt;"
            else if eqc c ">" then result ++ $"&gt;" else result in
          escape_loop fuel' s result (i + 1) (find_special s (i + 1))
      | None => append_sub result s j None
      end
  end.
Definition ApplyEscapeSequences (s : str) : res str :=
  escape_loop (S (S (length s))) s [] 0 (find_special s 0).

Definition quoted (k v : str) : str := k ++ $"=" ++ [chr 34] ++ v ++ [chr 34].
(** tfMeasurement.cpp 318-322, 487-497 *)
Definition PrintStartTag (m : meas) : str :=
  match m with
  | MF f => $"<" ++ file_elem ++ $" " ++ quoted ($"name") (fname f) ++ $" " ++ quoted ($"type") (ftype f) ++ $">"
  | MD d => $"<" ++ data_elem ++ $" " ++ quoted ($"name") (dname d) ++ $" " ++ quoted ($"type") (type_of (dcls d)) ++
            (if eqs (denc d) default_enc then [] else $" " ++ quoted ($"encoding") (denc d)) ++
            (if eqs (dcomp d) default_comp then [] else $" " ++ quoted ($"compression") (dcomp d)) ++ $">"
  end.
(** tfMeasurement.cpp 144-148, 160-172 *)
Definition Print (m : meas) : res str :=
  c <-- (if mesc m then ApplyEscapeSequences (mcontent m) else Ok (mcontent m)) ;;
  Ok (PrintStartTag m ++ c ++ $"</" ++ melem m ++ $">").

(** * Numeric values *)
(** decimal text of floating point values: [float] with precision 7, [double] with precision 16, and
    back; [UB] from a reader is the use of an indeterminate variable after a failed extraction. *)
Record numio := NumIO {
  print32 : spec_float -> str; read32 : str -> res spec_float;
  print64 : spec_float -> str; read64 : str -> res spec_float }.

(** tfMeasurement.cpp 539-551 *)
Definition int_GetValue (d : dm) : res Z := read_int INT_MIN INT_MAX (dcontent d).
Definition int_SetValue (d : dm) (v : Z) : dm := SetContent d (print_int v).
(** tfMeasurement.cpp 591-602; a [bool] is read as a [long]: 0 is false, everything else true *)
Definition bool_GetValue (d : dm) : res bool :=
  v <-- read_int LONG_MIN LONG_MAX (dcontent d) ;; Ok (negb (v =? 0)%Z).
Definition bool_SetValue (d : dm) (v : bool) : dm := SetContent d (print_int (if v then 1 else 0)%Z).
(** tfMeasurement.cpp 557-569, 575-587 *)
Definition float_GetValue (io : numio) (d : dm) : res spec_float := read32 io (dcontent d).
Definition float_SetValue (io : numio) (d : dm) (v : spec_float) : dm := SetContent d (print32 io v).
Definition double_GetValue (io : numio) (d : dm) : res spec_float := read64 io (dcontent d).
Definition double_SetValue (io : numio) (d : dm) (v : spec_float) : dm := SetContent d (print64 io v).

(** IEEE-754 binary32 and binary64, round to nearest even (Coq's [SpecFloat]) *)
Definition p32 : Z := 24. Definition x32 : Z := 128.
Definition p64 : Z := 53. Definition x64 : Z := 1024.
Definition mul64 := SFmul p64 x64.
Definition of_int64 (z : Z) : spec_float := binary_normalize p64 x64 z 0 false.
(** conversion [float] to [double] *)
Definition widen (x : spec_float) : spec_float :=
  match x with
  | S754_finite s m e => binary_normalize p64 x64 (cond_Zopp s (Zpos m)) e s
  | _ => x
  end.
(** [std::numeric_limits<T>::epsilon()] *)
Definition epsilon (prec emax : Z) : spec_float := binary_normalize prec emax 1 (1 - prec) false.

(** tfMeasurement.h 441-450 for T = int: subtraction and [std::abs] overflow are [UB]; [epsilon] is 0
    and the operands are converted to [double] in the comparisons. *)
Definition int_abs (z : Z) : res Z := if (z =? INT_MIN)%Z then UB else Ok (Z.abs z).
Definition tol_int (l r : Z) (tol : spec_float) : res bool :=
  let tol := SFabs tol in
  let diff := (l - r)%Z in
  if (diff <? INT_MIN)%Z || (INT_MAX <? diff)%Z then UB else
  temp <-- int_abs diff ;;
  al <-- int_abs l ;;
  if SFleb (of_int64 temp) (mul64 tol (of_int64 al)) then Ok true else
  ar <-- int_abs r ;;
  if SFleb (of_int64 temp) (mul64 tol (of_int64 ar)) then Ok true else
  Ok ((al <? 0)%Z && (ar <? 0)%Z).
(** tfMeasurement.h 441-450 for T = float, double; [w] converts T to double *)
Definition tol_fp (prec emax : Z) (w : spec_float -> spec_float) (l r tol : spec_float) : bool :=
  let tol := SFabs tol in
  let temp := SFabs (SFsub prec emax l r) in
  SFleb (w temp) (mul64 tol (w (SFabs l))) ||
  SFleb (w temp) (mul64 tol (w (SFabs r))) ||
  (SFltb (SFabs l) (epsilon prec emax) && SFltb (SFabs r) (epsilon prec emax)).
Definition tol_float := tol_fp p32 x32 widen.
Definition tol_double := tol_fp p64 x64 (fun x => x).

(** the four [IsEqualTolerant]s (tfMeasurement.h 478-484, 520-526, 559-565, 602-608) *)
Definition IsEqualTolerant (io : numio) (this rm : dm) (tol : spec_float) : res bool :=
  if cls_eqb (dcls this) (dcls rm) then
    match dcls this with
    | CInt => l <-- int_GetValue this ;; r <-- int_GetValue rm ;; tol_int l r tol
    | CFloat => l <-- float_GetValue io this ;; r <-- float_GetValue io rm ;; Ok (tol_float l r tol)
    | CDouble => l <-- double_GetValue io this ;; r <-- double_GetValue io rm ;; Ok (tol_double l r tol)
    | CBool => l <-- bool_GetValue this ;; r <-- bool_GetValue rm ;; Ok (Bool.eqb l r)
    | _ => Ok false
    end
  else Ok false.

(** * The compare visitor: tfMeasurementVisitor.cpp 126-175 *)
(** members [tolerantCompare] and [relativeTolerance] *)
Record cmp := Cmp { tolerantCompare : bool; relativeTolerance : spec_float }.
Definition SFzero : spec_float := S754_zero false.
Definition new_cmp : cmp := Cmp false SFzero.
(** 135-144; [SetToleranceOff] (tfMeasurementVisitor.h 126) resets [tolerantCompare] only *)
Definition SetTolerance (c : cmp) (t : spec_float) : cmp :=
  if SFeqb t SFzero then Cmp false (relativeTolerance c) else Cmp true t.
(** 146-152 *)
Definition GetTolerance (c : cmp) : spec_float :=
  if tolerantCompare c then relativeTolerance c else SFzero.

(** dynamic class of a measurement derives from NumericData *)
Definition numeric_meas (m : meas) : option dm :=
  match m with MD d => if is_numeric (dcls d) then Some d else None | MF _ => None end.

(** [m.AcceptVisitor(visitor)]: the overload chosen by the dynamic class of the test measurement
    (44-84, 157-175).  Returns baseline, test and the verdict. *)
Definition Compare (sc : bool) (fs : str -> source) (io : numio) (c : cmp) (baseline m : meas)
  : meas * meas * res bool :=
  match numeric_meas m with
  | Some d =>
      match numeric_meas baseline with
      | Some b =>
          if negb (SFeqb (GetTolerance c) SFzero) then
            (baseline, m, IsEqualTolerant io b d (GetTolerance c))
          else IsEqual sc fs baseline m
      | None => (baseline, m, Ok false)
      end
  | None => IsEqual sc fs baseline m
  end.
