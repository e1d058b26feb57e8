(** Model of what the driver writes to the standard error: /repo/TestingFramework/tfRegressionTest.cpp 53, 139-345, 372-434, 621-784 and /repo/TestingFramework/tfMeasurement.cpp 231-300, 302-315, 379-464, 472-484.
    The functions of RegModel, ReadModel and MeasModel again, with the messages.  A message is one [std::cerr << ... << std::endl] (or "\n"); [text_of] is its text.
    Simplifications: the text of an exception not thrown by the driver itself (by the test, the base64 decoder, a measurement's file) and the position and reason of an XML error are given from outside ([text_of]).
    The messages of the two operands of a comparison, whose order of evaluation C++ leaves open, come from left to right.  A file that can be opened but not read is a directory: [e_dir] tells whether
    its reported size can be allocated (tfMeasurement.cpp 257-259).  Messages of an event that ends in undefined behaviour are not described. *)
From Coq Require Import Floats.SpecFloat.
From Verif Require Import Base Str Dec B64Model PathModel MeasModel DiffModel VisitModel XmlModel ReadModel RegModel.

Inductive msg :=
| NotWritable (name : str)              (* tfRegressionTest.cpp 216 *)
| ExpectedOutput                        (* 630 *)
| UnknownType (t : str)                 (* 643 *)
| UnknownAttribute (a : str)            (* 662, 682 *)
| UnknownElement (el : str)             (* 688 *)
| TooDeep                               (* 691 *)
| ParseError                            (* 773-774 *)
| Caught (what : option str) (x : exn)  (* 53, 330; [what]: the text, when it is the driver that throws *)
| CannotOpen (name : str)               (* tfMeasurement.cpp 244 *)
| UnknownFileType (t : str)             (* 277 *)
| BadCompression (c : str)              (* 382, 448 *)
| NotBase64                             (* 398 *)
| BadEncoding (c : str)                 (* 403, 460 *)
| Written (text : str).                 (* by code on top of the driver: ItkErrModel *)

Definition between (a b c : str) : str := a ++ [chr 34] ++ b ++ [chr 34] ++ c ++ [nl].
(** [parse]: the line about the XML error; [other]: the line about an exception thrown elsewhere *)
Definition text_of (parse other : str) (m : msg) : str :=
  match m with
  | NotWritable n => between ($"unable to write to file ") n ($"!")
  | ExpectedOutput => $"XML: expected " ++ [chr 34] ++ $"output" ++ [chr 34] ++ $" document element type" ++ [nl]
  | UnknownType t => between ($"XML: unknow dart measurement type ") t []
  | UnknownAttribute a => between ($"XML: unknow attribute ") a []
  | UnknownElement el => between ($"XML: unknown element type ") el []
  | TooDeep => $"XML: depth is too deep" ++ [nl]
  | ParseError => parse
  | Caught (Some what) _ => between ($"std::runtime_error: ") (cstr what) []
  | Caught None ExnRuntime => other
  | Caught None ExnOther => $"unknow exception" ++ [nl]
  | CannotOpen n => between ($"error opening file ") n ($".")
  | UnknownFileType t => between ($"Unknown measurement type ") t ($".")
  | BadCompression c => between ($"unsupported compression ") c ($" used.")
  | NotBase64 => $"error decodeing base64" ++ [nl]
  | BadEncoding c => between ($"unsupported encoding ") c ($" used.")
  | Written t => t
  end.

(** * The reader *)
(** 638-647 *)
Fixpoint type_says (al : list (str * str)) : list msg :=
  match al with
  | [] => []
  | (k, v) :: al' => (if eqs k ($"type") then match CreateDataMeasurement v with Some _ => [] | None => [UnknownType v] end else []) ++ type_says al'
  end.
(** 651-663 *)
Fixpoint attrs_say (al : list (str * str)) : list msg :=
  match al with
  | [] => []
  | (k, _) :: al' =>
      (if eqs k ($"name") || eqs k ($"type") || eqs k ($"encoding") || eqs k ($"compression") then [] else [UnknownAttribute k]) ++ attrs_say al'
  end.
(** 675-683 *)
Fixpoint file_attrs_say (al : list (str * str)) : list msg :=
  match al with
  | [] => []
  | (k, _) :: al' => (if eqs k ($"name") || eqs k ($"type") then [] else [UnknownAttribute k]) ++ file_attrs_say al'
  end.
(** 621-695 *)
Definition start_says (depth : nat) (el : str) (al : list (str * str)) : list msg :=
  match depth with
  | 0 => if eqs el ($"output") then [] else [ExpectedOutput]
  | 1 => if eqs el data_elem then type_says al ++ attrs_say al
         else if eqs el file_elem then file_attrs_say al
         else [UnknownElement el]
  | _ => [TooDeep]
  end.
Definition event_says (p : pdata) (ev : event) : list msg :=
  match ev with EStart n al => start_says (pdepth p) n al | _ => [] end.
(** the events up to the first one that stops the program *)
Fixpoint events_say (asserts : bool) (p : pdata) (evs : list event) : list msg :=
  match evs with
  | [] => []
  | ev :: evs' =>
      match on_event asserts p ev with Ok p' => event_says p ev ++ events_say asserts p' evs' | _ => [] end
  end.
(** 725-784 *)
Definition read_says (asserts : bool) (ext : str -> list event * bool) (file : str) : list msg :=
  match buffers (S (length file)) (length file) file with
  | Ok bufs =>
      let '(evs, ok) := expat ext (concat (map fst bufs)) in
      events_say asserts pd0 evs ++ (match on_events asserts pd0 evs with Ok _ => if ok then [] else [ParseError] | _ => [] end)
  | _ => []
  end.

(** * Comparing *)
(** tfMeasurement.cpp 379-409 *)
Definition update_says (sc : bool) (d : dm) : list msg :=
  (if eqs (dcomp d) ($"none") then [] else [BadCompression (dcomp d)]) ++
  (if eqs (denc d) ($"none") then []
   else if eqs (denc d) ($"base64") then
     match IsBase64 sc default_opts (dcontent d) with Ok 0 => match dcontent d with [] => [] | _ => [NotBase64] end | _ => [] end
   else [BadEncoding (denc d)]).
(** 418-434: only without data *)
Definition ensure_says (sc : bool) (d : dm) : list msg := match ddata d with Some _ => [] | None => update_says sc d end.
(** 472-484 *)
Definition data_equal_says (sc : bool) (this td : dm) : list msg :=
  if eqs (dname this) (dname td) && eqs (type_of (dcls this)) (type_of (dcls td)) then
    ensure_says sc this ++
    (let '(this, r1) := GetContentAsDataSize sc this in
     match r1 with
     | Ok n1 =>
         ensure_says sc td ++
         (let '(td, r2) := GetContentAsDataSize sc td in
          match r2 with
          | Ok n2 =>
              if n1 =? n2 then
                let '(this1, _) := GetContentAsData sc this in
                ensure_says sc this ++ ensure_says sc td ++ ensure_says sc this1
              else []
          | _ => []
          end)
     | _ => []
     end)
  else [].
(** 231-300; the new object has neither encoding nor compression, so SetContentAsData (436-464) says nothing *)
Definition load_says (dir : bool) (fs : str -> source) (f : mf) : list msg :=
  match fs (cstr (ffile f)) with
  | Missing => [CannotOpen (ffile f)]
  | Bytes _ => match CreateDataMeasurement (ftype f) with Some _ => [] | None => [UnknownFileType (ftype f)] end
  | Unreadable => if dir then match CreateDataMeasurement (ftype f) with Some _ => [] | None => [UnknownFileType (ftype f)] end else []
  end.
(** 302-315 *)
Definition file_data_says (dir sc : bool) (fs : str -> source) (this : mf) (m : dm) : list msg :=
  if negb (eqs (fname this) (dname m)) || negb (eqs (ftype this) (type_of (dcls m))) then []
  else load_says dir fs this ++ match Load fs this with Ok d => data_equal_says sc m d | _ => [] end.
Definition file_file_says (dir sc : bool) (fs : str -> source) (this m : mf) : list msg :=
  if negb (eqs (fname this) (fname m)) || negb (eqs (ftype this) (ftype m)) then []
  else load_says dir fs this ++ match Load fs this with Ok d => file_data_says dir sc fs m d | _ => [] end.
(** 150-152 *)
Definition equal_says (dir sc : bool) (fs : str -> source) (this m : meas) : list msg :=
  match this, m with
  | MD a, MD b => data_equal_says sc a b
  | MD a, MF f => file_data_says dir sc fs f a
  | MF f, MD b => file_data_says dir sc fs f b
  | MF f, MF g => file_file_says dir sc fs f g
  end.
(** tfMeasurementVisitor.cpp 157-175; the difference visitor (91-123) says nothing *)
Definition compare_says (dir sc : bool) (fs : str -> source) (c : cmp) (baseline m : meas) : list msg :=
  match numeric_meas m with
  | Some _ =>
      match numeric_meas baseline with
      | Some _ => if negb (SFeqb (GetTolerance c) SFzero) then [] else equal_says dir sc fs baseline m
      | None => []
      end
  | None => equal_says dir sc fs baseline m
  end.

(** * The driver.  [x_what]: the text of the exception on its way *)
Record xst := Xst { x_s : rst; x_err : list msg; x_what : option str }.
Definition X (A : Type) : Type := xst -> xst * res A.
Definition xret {A} (a : A) : X A := fun x => (x, Ok a).
Definition xbind {A B} (m : X A) (k : A -> X B) : X B := fun x =>
  let '(x', r) := m x in
  match r with Ok a => k a x' | Throw e => (x', Throw e) | UB => (x', UB) | Abort => (x', Abort) | Hang => (x', Hang) end.
Notation "x <! m ;; k" := (xbind m (fun x => k)) (at level 61, m at next level, right associativity).
(** nothing is said *)
Definition quiet {A} (m : M A) : X A := fun x => let '(s, r) := m (x_s x) in (Xst s (x_err x) (x_what x), r).
Definition say (f : rst -> list msg) : X unit := fun x => (Xst (x_s x) (x_err x ++ f (x_s x)) (x_what x), Ok tt).
(** what [m] throws has this text *)
Definition throwing {A} (w : rst -> str) (m : M A) : X A := fun x =>
  let '(s, r) := m (x_s x) in (Xst s (x_err x) (match r with Throw _ => Some (w (x_s x)) | _ => x_what x end), r).

Definition between' (a b : str) : str := a ++ [chr 34] ++ b ++ [chr 34] ++ $"!".
(** 205-284 *)
Fixpoint x_parse_loop (e : env) (fuel : nat) (argc : nat) (argv : list str) (inf outf : option str)
  : X (nat * list str * option str * option str) := fun x =>
  match fuel with
  | 0 => (x, Hang)
  | S fuel' =>
      if argc <=? 1 then (x, Ok (argc, argv, inf, outf)) else
      (a <! quiet (mlift (rd 1 argv)) ;;
       let remove (k : nat -> list str -> X (nat * list str * option str * option str)) :=
         argv' <! quiet (mlift (swap_loop (argc - 3) 1 argv)) ;; k (argc - 2) argv' in
       if eqs a ($"-O") then
         if 2 <? argc then
           v <! quiet (mlift (rd 2 argv)) ;;
           ok <! quiet (gets (fun s => negb (is_file e (s_files s) v && negb (is_writable e (s_files s) v)))) ;;
           _ <! say (fun _ => if (ok : bool) then [] else [NotWritable v]) ;;
           remove (fun argc argv => x_parse_loop e fuel' argc argv inf (if (ok : bool) then Some v else None))
         else x_parse_loop e fuel' argc argv inf outf
       else if eqs a ($"-I") then
         if 2 <? argc then
           v <! quiet (mlift (rd 2 argv)) ;;
           ok <! quiet (gets (fun s => is_file e (s_files s) v && is_readable e (s_files s) v)) ;;
           if (ok : bool) then remove (fun argc argv => x_parse_loop e fuel' argc argv (Some v) outf)
           else throwing (fun _ => between' ($"unable to read input file ") v) (mlift (Throw ExnRuntime))
         else x_parse_loop e fuel' argc argv inf outf
       else if eqs a ($"-R") then
         if 2 <? argc then
           v <! quiet (mlift (rd 2 argv)) ;;
           _ <! quiet (modify (fun s => set_expected s (wrap32 (strtol10 v)))) ;;
           remove (fun argc argv => x_parse_loop e fuel' argc argv inf outf)
         else x_parse_loop e fuel' argc argv inf outf
       else if eqs a ($"-P") then
         if 2 <? argc then
           v <! quiet (mlift (rd 2 argv)) ;;
           ok <! quiet (gets (fun s => is_directory e (s_files s) v && is_readable e (s_files s) v)) ;;
           if (ok : bool) then
             remove (fun argc argv => _ <! quiet (modify (fun s => set_path s (v :: s_path s))) ;; x_parse_loop e fuel' argc argv inf outf)
           else throwing (fun _ => between' ($"unable to read input path ") v) (mlift (Throw ExnRuntime))
         else x_parse_loop e fuel' argc argv inf outf
       else xret (argc, argv, inf, outf)) x
  end.
(** 199-290 *)
Definition x_Parse (e : env) (fuel : nat) (argv : list str) : X (nat * list str) :=
  r <! x_parse_loop e fuel (length argv) argv None None ;;
  let '(argc, argv, inf, outf) := r in
  _ <! quiet (modify (fun s => match inf with Some v => set_in s v | None => s end)) ;;
  _ <! quiet (modify (fun s => match outf with Some v => set_out s v | None => s end)) ;;
  xret (argc, argv).
(** 725-784: a directory cannot be read (764-765) *)
Definition x_read_input (e : env) : X unit :=
  _ <! say (fun s => match s_is s with
                     | Some k => match s_files s k with Some (FFile _ _ b) => read_says (e_asserts e) (e_ext e) b | _ => [] end
                     | None => []
                     end) ;;
  throwing (fun s => match s_is s with
                     | Some k => match s_files s k with Some (FFile _ _ _) => $"parse error" | _ => $"XML:read error" end
                     | None => $"XML:read error"
                     end) (read_input e).
(** 139-175 *)
Definition x_Begin (e : env) : X unit :=
  _ <! throwing (fun s => between' ($"unable to open output file ") (s_out s)) (open_output e) ;;
  _ <! throwing (fun s => between' ($"unable to open input file ") (s_in s)) (open_input e) ;;
  cm <! quiet (GetCompareMode e) ;;
  if (cm : bool) then x_read_input e else quiet (put (header e)).
(** 372-434 *)
Definition x_Compare (dir : bool) (e : env) (m : meas) (tolerant : bool) : X Z :=
  inp <! quiet (gets s_input) ;;
  match inp with
  | [] => _ <! quiet (UnmatchedMeasurement m) ;; xret 1%Z
  | baseline :: rest =>
      _ <! quiet (modify (fun s => set_input s rest)) ;;
      if eqs (mname baseline) (mname m) && eqs (mtype baseline) (mtype m) then
        baseline <! quiet (fun s => (s, locate e s baseline m)) ;;
        _ <! say (fun s => compare_says dir (e_sc e) (sources e (s_files s)) (visitor s tolerant) baseline m) ;;
        out <! quiet (gets (fun s => Compare (e_sc e) (sources e (s_files s)) (e_io e) (visitor s tolerant) baseline m)) ;;
        let '(baseline, m, v) := out in
        same <! quiet (mlift v) ;;
        if (same : bool) then xret 1%Z
        else _ <! quiet (DifferenceMeasurement e m baseline) ;; xret 0%Z
      else _ <! quiet (UnmatchedMeasurement m) ;; xret 1%Z
  end.
(** 441-584 *)
Definition x_Measure (dir : bool) (e : env) (c : call) : X Z :=
  cm <! quiet (GetCompareMode e) ;;
  if (cm : bool) then x_Compare dir e (meas_of (e_io e) true c) (tolerant_of c)
  else _ <! quiet (put_meas (meas_of (e_io e) false c)) ;; xret 0%Z.
Fixpoint x_run (dir : bool) (e : env) (p : prog) : X Z :=
  match p with
  | Return z => xret z
  | Raise x => quiet (mlift (Throw x))
  | Call c k => r <! x_Measure dir e c ;; x_run dir e (k r)
  | SetRelativeTolerance t k => _ <! quiet (modify (fun s => set_tol s t)) ;; x_run dir e k
  | SetExpectedReturn z k => _ <! quiet (modify (fun s => set_expected s z)) ;; x_run dir e k
  | WriteFile path b k => _ <! quiet (modify (fun s => set_files s (write_file e (s_files s) path b))) ;; x_run dir e k
  end.
Definition x_body (dir : bool) (e : env) (test : list str -> prog) (argv : list str) : X Z :=
  r <! x_Parse e (S (length argv)) argv ;;
  let '(argc, argv) := r in
  _ <! x_Begin e ;;
  x_run dir e (test (firstn argc argv)).
(** 316-331 *)
Definition report (ex : exn) (x : xst) : xst := Xst (x_s x) (x_err x ++ [Caught (x_what x) ex]) None.
(** 292-345; 315: [EndMeasurement] says nothing *)
Definition x_Main (dir : bool) (e : env) (test : list str -> prog) (argv : list str) : X Z := fun x =>
  let x := Xst (set_unmatched (x_s x) (s_unmatched (x_s x) + 1)) (x_err x) None in
  let finish (ret : Z) (x : xst) : xst * res Z :=
    if negb (ret =? s_expected (x_s x))%Z then (x, Ok ret)
    else (x, cm <-- compare_mode e (x_s x) ;; Ok (if (cm : bool) then s_unmatched (x_s x) else 0%Z)) in
  match x_body dir e test argv x with
  | (x, Ok ret) =>
      match quiet (EndMeasurement e) x with
      | (x, Ok _) => finish ret (Xst (set_unmatched (x_s x) (s_unmatched (x_s x) - 1)) (x_err x) (x_what x))
      | (x, Throw ex) => finish ret (report ex x)
      | (x, UB) => (x, UB) | (x, Abort) => (x, Abort) | (x, Hang) => (x, Hang)
      end
  | (x, Throw ex) => finish (-1)%Z (report ex x)
  | (x, UB) => (x, UB) | (x, Abort) => (x, Abort) | (x, Hang) => (x, Hang)
  end.
(** all a new test object says *)
Definition says (dir : bool) (e : env) (f : store) (test : list str -> prog) (argv : list str) : list msg :=
  x_err (fst (x_Main dir e test argv (Xst (new_test f) [] None))).
