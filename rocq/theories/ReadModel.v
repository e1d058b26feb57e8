(** Model of the XML reader, /repo/TestingFramework/tfRegressionTest.cpp 608-784. *)
From Verif Require Import Base Str MeasModel XmlModel.

(** 611-618: [XMLParseData] *)
Record pdata := PD { pdepth : nat; ptext : str; pm : option meas; plist : list meas }.
Definition pd0 : pdata := PD 0 [] None [].

(** 638-647: the last "type" attribute creates the object; an unknown type gives a [PlainText] *)
Fixpoint find_type (al : list (str * str)) (d : option dm) : option dm :=
  match al with
  | [] => d
  | (k, v) :: al' =>
      find_type al' (if eqs k ($"type")
                     then Some (new_dm (match CreateDataMeasurement v with Some c => c | None => CPlain end)) else d)
  end.
(** 651-663: setting an attribute through the null pointer is undefined *)
Fixpoint set_attrs (al : list (str * str)) (d : option dm) : res (option dm) :=
  match al with
  | [] => Ok d
  | (k, v) :: al' =>
      let use (f : dm -> dm) := match d with Some d => Ok (Some (f d)) | None => UB end in
      d' <-- (if eqs k ($"name") then use (fun d => SetAttributeName d v)
              else if eqs k ($"type") then Ok d
              else if eqs k ($"encoding") then use (fun d => SetAttributeEncoding d v)
              else if eqs k ($"compression") then use (fun d => SetAttributeCompression d v)
              else Ok d) ;;
      set_attrs al' d'
  end.
(** 675-683 *)
Fixpoint set_file_attrs (al : list (str * str)) (f : mf) : mf :=
  match al with
  | [] => f
  | (k, v) :: al' =>
      set_file_attrs al' (if eqs k ($"name") then Mf v (fesc f) (ftype f) (ffile f)
                          else if eqs k ($"type") then Mf (fname f) (fesc f) v (ffile f) else f)
  end.
(** 634-692: the new current measurement *)
Definition start_measurement (el : str) (al : list (str * str)) : res (option meas) :=
  if eqs el data_elem then
    d <-- set_attrs al (find_type al None) ;; Ok (option_map MD d)
  else if eqs el file_elem then
    Ok (Some (MF (set_file_attrs al (Mf ($"unknown") true ($"text/plain") []))))
  else Ok None.

(** 621-695; [asserts]: compiled without NDEBUG.  With NDEBUG an element inside a measurement leaves the current
    measurement as it is (depth 2 or more), one at depth 1 replaces it (it is null there). *)
Definition on_start (asserts : bool) (p : pdata) (el : str) (al : list (str * str)) : res pdata :=
  if asserts && negb (match pm p with None => true | _ => false end) then Abort
  else if asserts && negb (length (ptext p) =? 0) then Abort
  else if pdepth p =? 1 then
    if eqs el data_elem || eqs el file_elem then
      m <-- start_measurement el al ;; Ok (PD (S (pdepth p)) (ptext p) m (plist p))
    else Ok (PD (S (pdepth p)) (ptext p) (pm p) (plist p))
  else Ok (PD (S (pdepth p)) (ptext p) (pm p) (plist p)).

(** [Measurement::SetContent]: tfMeasurement.cpp 216-218 (file), tfMeasurement.h 342, 423 (data) *)
Definition mset_content (m : meas) (s : str) : meas :=
  match m with MD d => MD (SetContent d s) | MF f => MF (Mf (fname f) (fesc f) (ftype f) s) end.
(** 697-714 *)
Definition on_end (p : pdata) : pdata :=
  PD (pred (pdepth p)) [] None
     (plist p ++ match pm p with
                 | Some m => if pdepth p =? 2 then [mset_content m (ptext p)] else []
                 | None => []
                 end).
(** 716-722 *)
Definition on_data (p : pdata) (s : str) : pdata :=
  if pdepth p =? 2 then PD (pdepth p) (ptext p ++ s) (pm p) (plist p) else p.

Definition on_event (asserts : bool) (p : pdata) (e : event) : res pdata :=
  match e with
  | EStart n al => on_start asserts p n al
  | EEnd _ => Ok (on_end p)
  | EData s => Ok (on_data p s)
  end.
Fixpoint on_events (asserts : bool) (p : pdata) (evs : list event) : res pdata :=
  match evs with
  | [] => Ok p
  | e :: evs' => p' <-- on_event asserts p e ;; on_events asserts p' evs'
  end.

(** 753-780: the buffers handed to the parser with their [done] flags.  [rest] is the unread part of the file, [size] the
    size found by seeking (735-739).  Passing more bytes than were read is undefined.  A read error is not modelled here. *)
Definition BUFFSIZE : nat := 1024.
Fixpoint buffers (fuel : nat) (size : nat) (rest : str) : res (list (str * bool)) :=
  match fuel with
  | 0 => Hang
  | S fuel' =>
      let got := firstn BUFFSIZE rest in
      let done := length got <? BUFFSIZE in        (* eof() *)
      let len := if done then size mod BUFFSIZE else BUFFSIZE in
      if length got <? len then UB
      else if done then Ok [(firstn len got, true)]
      else l <-- buffers fuel' size (skipn BUFFSIZE rest) ;; Ok ((firstn len got, false) :: l)
  end.

(** 725-784: result of reading a file with these bytes; the destructor of [XMLParseData] (613) asserts that no
    measurement is pending, also when the parse error is thrown. *)
Definition ReadXMLInput (asserts : bool) (ext : str -> list event * bool) (file : str) : res (list meas) :=
  bufs <-- buffers (S (length file)) (length file) file ;;
  let '(evs, ok) := expat ext (concat (map fst bufs)) in
  p <-- on_events asserts pd0 evs ;;
  if asserts && negb (match pm p with None => true | _ => false end) then Abort
  else if ok then Ok (plist p) else Throw ExnRuntime.
