(** Model of the objects the driver allocates: /repo/TestingFramework/tfRegressionTest.cpp 66-68, 139-196, 292-434, 611-792.
    The functions of RegModel and ReadModel with pointers: every [new], every [delete], every use of an object through a pointer.  The objects themselves stay where RegModel has them; here a pointer is a number and
    the heap says which numbers are objects.  Deleting what is not an object, and using it, is recorded ([wrong]).
    Simplifications: [new] succeeds.  The objects allocated and freed inside one comparison (the loaded file and its buffer, tfMeasurement.cpp 231-312; the arrays of tfDiff.cpp 365-506) and the data buffer a
    measurement owns are not described; the streams are used through the pointer whenever the driver writes or reads. *)
From Coq Require Import Floats.SpecFloat.
From Verif Require Import Base Str Dec PathModel MeasModel DiffModel VisitModel XmlModel ReadModel RegModel.

Inductive kind := KStream | KMeasurement | KVisitor | KParser.
Record heap := Heap { live : nat -> option kind; next : nat; wrong : bool }.
Definition put_at (l : nat -> option kind) (p : nat) (v : option kind) : nat -> option kind := fun q => if q =? p then v else l q.
Definition alloc (k : kind) (h : heap) : heap * nat := (Heap (put_at (live h) (next h) (Some k)) (S (next h)) (wrong h), next h).
Definition dealloc (p : nat) (h : heap) : heap :=
  match live h p with Some _ => Heap (put_at (live h) p None) (next h) (wrong h) | None => Heap (live h) (next h) true end.
Definition access (p : nat) (h : heap) : heap := match live h p with Some _ => h | None => Heap (live h) (next h) true end.
Definition access_opt (p : option nat) (h : heap) : heap := match p with Some p => access p h | None => h end.

(** * The reader *)
(** 611-618: the pointers of [XMLParseData] *)
Record pptrs := PP { pp_m : option nat; pp_list : list nat }.
(** 638-647: every "type" attribute creates an object *)
Fixpoint a_find_type (al : list (str * str)) (d : option nat) (h : heap) : heap * option nat :=
  match al with
  | [] => (h, d)
  | (k, _) :: al' => if eqs k ($"type") then let '(h, p) := alloc KMeasurement h in a_find_type al' (Some p) h else a_find_type al' d h
  end.
(** 651-663 *)
Fixpoint a_set_attrs (al : list (str * str)) (d : option nat) (h : heap) : heap :=
  match al with
  | [] => h
  | (k, _) :: al' =>
      if eqs k ($"name") || negb (eqs k ($"type")) && (eqs k ($"encoding") || eqs k ($"compression")) then a_set_attrs al' d (access_opt d h) else a_set_attrs al' d h
  end.
(** 634-692 *)
Definition a_start_measurement (el : str) (al : list (str * str)) (h : heap) : heap * option nat :=
  if eqs el data_elem then let '(h, d) := a_find_type al None h in (a_set_attrs al d h, d)
  else if eqs el file_elem then let '(h, p) := alloc KMeasurement h in (access p h, Some p)
  else (h, None).
(** 621-695 *)
Definition a_on_start (p : pdata) (el : str) (al : list (str * str)) (q : pptrs) (h : heap) : heap * pptrs :=
  if pdepth p =? 1 then
    if eqs el data_elem || eqs el file_elem then let '(h, m) := a_start_measurement el al h in (h, PP m (pp_list q)) else (h, q)
  else (h, q).
(** 697-714 *)
Definition a_on_end (p : pdata) (q : pptrs) (h : heap) : heap * pptrs :=
  match pp_m q with
  | Some m => if pdepth p =? 2 then (access m h, PP None (pp_list q ++ [m])) else (dealloc m h, PP None (pp_list q))
  | None => (h, PP None (pp_list q))
  end.
Definition a_on_event (p : pdata) (e : event) (q : pptrs) (h : heap) : heap * pptrs :=
  match e with
  | EStart n al => a_on_start p n al q h
  | EEnd _ => a_on_end p q h
  | EData _ => (h, q)
  end.
(** the events up to the first one that stops the program *)
Fixpoint a_on_events (asserts : bool) (p : pdata) (evs : list event) (q : pptrs) (h : heap) : heap * pptrs :=
  match evs with
  | [] => (h, q)
  | e :: evs' =>
      let '(h, q) := a_on_event p e q h in
      match on_event asserts p e with Ok p' => a_on_events asserts p' evs' q h | _ => (h, q) end
  end.
(** 725-784: the parser is freed at the end only; the list of pointers is the new [Input] (782) *)
Definition a_ReadXMLInput (asserts : bool) (ext : str -> list event * bool) (file : str) (h : heap) : heap * list nat :=
  let '(h, parser) := alloc KParser h in
  match buffers (S (length file)) (length file) file with
  | Ok bufs =>
      let '(evs, ok) := expat ext (concat (map fst bufs)) in
      let '(h, q) := a_on_events asserts pd0 evs (PP None []) h in
      match ReadXMLInput asserts ext file with Ok _ => (dealloc parser h, pp_list q) | _ => (h, []) end
  | _ => (h, [])
  end.

(** * The driver: the object with its pointers.  [h_ptrs]: the list [Input] *)
Record hst := Hst { h_s : rst; h_heap : heap; h_ptrs : list nat; h_os : option nat; h_is : option nat }.
Definition H (A : Type) : Type := hst -> hst * res A.
Definition hret {A} (a : A) : H A := fun h => (h, Ok a).
Definition hbind {A B} (m : H A) (k : A -> H B) : H B := fun h =>
  let '(h', r) := m h in
  match r with Ok a => k a h' | Throw e => (h', Throw e) | UB => (h', UB) | Abort => (h', Abort) | Hang => (h', Hang) end.
Notation "x <* m ;; k" := (hbind m (fun x => k)) (at level 61, m at next level, right associativity).
(** no pointers involved *)
Definition plain {A} (m : M A) : H A := fun h => let '(s, r) := m (h_s h) in (Hst s (h_heap h) (h_ptrs h) (h_os h) (h_is h), r).
Definition on_heap (g : heap -> heap) : H unit := fun h => (Hst (h_s h) (g (h_heap h)) (h_ptrs h) (h_os h) (h_is h), Ok tt).
Definition hnew (k : kind) : H nat := fun h => let '(hp, p) := alloc k (h_heap h) in (Hst (h_s h) hp (h_ptrs h) (h_os h) (h_is h), Ok p).
Definition hdelete (p : nat) : H unit := on_heap (dealloc p).
Definition huse (p : nat) : H unit := on_heap (access p).
Definition hdelete_opt (p : option nat) : H unit := match p with Some p => hdelete p | None => hret tt end.
Definition set_h_os (v : option nat) : H unit := fun h => (Hst (h_s h) (h_heap h) (h_ptrs h) v (h_is h), Ok tt).
Definition set_h_is (v : option nat) : H unit := fun h => (Hst (h_s h) (h_heap h) (h_ptrs h) (h_os h) v, Ok tt).
Definition set_h_ptrs (v : list nat) : H unit := fun h => (Hst (h_s h) (h_heap h) v (h_os h) (h_is h), Ok tt).
Definition get_h {A} (f : hst -> A) : H A := fun h => (h, Ok (f h)).
(** whatever the exception: do [m] and throw it again *)
Definition on_throw {A} (m : H A) (undo : H unit) : H A := fun h =>
  match m h with
  | (h', Throw x) => (fst (undo h'), Throw x)
  | r => r
  end.

(** 117-119 *)
Definition h_put (text : str) : H unit :=
  os <* get_h h_os ;; _ <* on_heap (access_opt os) ;; plain (put text).
Definition h_put_meas (m : meas) : H unit := t <* plain (mlift (Print m)) ;; h_put (t ++ [nl]).
(** 143-153 *)
Definition h_open_output (e : env) : H unit := fun h =>
  match s_out (h_s h) with
  | [] => (h, Ok tt)
  | _ => (p <* hnew KStream ;; _ <* set_h_os (Some p) ;;
          on_throw (plain (open_output e)) (os <* get_h h_os ;; _ <* hdelete_opt os ;; set_h_os None)) h
  end.
(** 155-168 *)
Definition h_open_input (e : env) : H unit := fun h =>
  match s_in (h_s h) with
  | [] => (h, Ok tt)
  | name =>
      (_ <* plain (fun s => (s, search e s name)) ;;
       p <* hnew KStream ;; _ <* set_h_is (Some p) ;;
       on_throw (plain (open_input e)) (is <* get_h h_is ;; _ <* hdelete_opt is ;; set_h_is None)) h
  end.
(** 725-784; the previous pointers of [Input] get lost (782) *)
Definition h_read_input (e : env) : H unit :=
  is <* get_h h_is ;;
  _ <* on_heap (access_opt is) ;;
  fun h =>
    match s_is (h_s h) with
    | Some k =>
        match s_files (h_s h) k with
        | Some (FFile _ _ b) =>
            let '(hp, l) := a_ReadXMLInput (e_asserts e) (e_ext e) b (h_heap h) in
            (_ <* on_heap (fun _ => hp) ;; _ <* plain (read_input e) ;; set_h_ptrs l) h
        | _ => (_ <* hnew KParser ;; plain (read_input e)) h          (* nothing can be read: 760-761 *)
        end
    | None => plain (read_input e) h
    end.
(** 139-175 *)
Definition h_Begin (e : env) : H unit :=
  _ <* h_open_output e ;;
  _ <* h_open_input e ;;
  cm <* plain (GetCompareMode e) ;;
  if (cm : bool) then h_read_input e else h_put (header e).
(** 787-792 *)
Fixpoint delete_all (l : list nat) : H unit := match l with [] => hret tt | p :: l' => _ <* hdelete p ;; delete_all l' end.
Definition h_free : H unit := l <* get_h h_ptrs ;; _ <* delete_all l ;; _ <* set_h_ptrs [] ;; plain (modify (fun s => set_input s [])).
(** 177-196 *)
Definition h_End (e : env) : H unit :=
  cm <* plain (GetCompareMode e) ;;
  _ <* (if (cm : bool) then h_free else h_put footer) ;;
  os <* get_h h_os ;; _ <* hdelete_opt os ;; _ <* set_h_os None ;;
  is <* get_h h_is ;; _ <* hdelete_opt is ;; _ <* set_h_is None ;;
  plain (modify (fun s => set_is (set_os s None) None)).
(** 347-351 *)
Definition h_Unmatched (m : meas) : H unit :=
  _ <* plain (modify (fun s => set_unmatched s (s_unmatched s + 1))) ;;
  h_put_meas (mset_name m ($"Unmatched " ++ mname m)).
(** 357-365 *)
Definition h_Difference (e : env) (m : meas) (bp : nat) (baseline : meas) : H unit :=
  _ <* plain (modify (fun s => set_unmatched s (s_unmatched s + 1))) ;;
  vis <* hnew KVisitor ;;
  _ <* huse vis ;; _ <* huse bp ;;
  text <* plain (mlift (snd (Difference (e_sc e) (e_asserts e) (e_oob e) baseline m))) ;;
  _ <* h_put text ;;
  hdelete vis.
(** 372-434 *)
Definition h_Compare (e : env) (m : meas) (tolerant : bool) : H Z :=
  inp <* plain (gets s_input) ;;
  match inp with
  | [] => _ <* h_Unmatched m ;; hret 1%Z
  | baseline :: rest =>
      ps <* get_h h_ptrs ;;
      let bp := hd 0 ps in
      _ <* set_h_ptrs (tl ps) ;;
      _ <* plain (modify (fun s => set_input s rest)) ;;
      _ <* huse bp ;;
      ret <* (if eqs (mname baseline) (mname m) && eqs (mtype baseline) (mtype m) then
                baseline <* plain (fun s => (s, locate e s baseline m)) ;;
                vis <* hnew KVisitor ;;
                _ <* huse vis ;; _ <* huse bp ;;
                out <* plain (gets (fun s => Compare (e_sc e) (sources e (s_files s)) (e_io e) (visitor s tolerant) baseline m)) ;;
                let '(baseline, m, v) := out in
                same <* plain (mlift v) ;;
                ret <* (if (same : bool) then hret 1%Z else _ <* h_Difference e m bp baseline ;; hret 0%Z) ;;
                _ <* hdelete vis ;; hret ret
              else _ <* h_Unmatched m ;; hret 1%Z) ;;
      _ <* hdelete bp ;; hret ret
  end.
(** 441-584 *)
Definition h_Measure (e : env) (c : call) : H Z :=
  cm <* plain (GetCompareMode e) ;;
  if (cm : bool) then h_Compare e (meas_of (e_io e) true c) (tolerant_of c)
  else _ <* h_put_meas (meas_of (e_io e) false c) ;; hret 0%Z.
Fixpoint h_run (e : env) (p : prog) : H Z :=
  match p with
  | Return z => hret z
  | Raise x => plain (mlift (Throw x))
  | Call c k => r <* h_Measure e c ;; h_run e (k r)
  | SetRelativeTolerance t k => _ <* plain (modify (fun s => set_tol s t)) ;; h_run e k
  | SetExpectedReturn z k => _ <* plain (modify (fun s => set_expected s z)) ;; h_run e k
  | WriteFile path b k => _ <* plain (modify (fun s => set_files s (write_file e (s_files s) path b))) ;; h_run e k
  end.
Definition h_main_body (e : env) (test : list str -> prog) (argv : list str) : H Z :=
  r <* plain (ParseAndRemoveArguments e (S (length argv)) argv) ;;
  let '(argc, argv) := r in
  _ <* h_Begin e ;;
  h_run e (test (firstn argc argv)).
(** 292-345; the second component tells whether an exception was caught *)
Definition h_Main (e : env) (test : list str -> prog) (argv : list str) : hst -> hst * res Z * bool := fun h =>
  let h := fst (plain (modify (fun s => set_unmatched s (s_unmatched s + 1))) h) in
  let finish (ret : Z) (h : hst) : hst * res Z :=
    if negb (ret =? s_expected (h_s h))%Z then (h, Ok ret)
    else (h, cm <-- compare_mode e (h_s h) ;; Ok (if (cm : bool) then s_unmatched (h_s h) else 0%Z)) in
  match h_main_body e test argv h with
  | (h, Ok ret) =>
      match h_End e h with
      | (h, Ok _) => (finish ret (fst (plain (modify (fun s => set_unmatched s (s_unmatched s - 1))) h)), false)
      | (h, Throw _) => (finish ret h, true)
      | (h, UB) => (h, UB, false) | (h, Abort) => (h, Abort, false) | (h, Hang) => (h, Hang, false)
      end
  | (h, Throw _) => (finish (-1)%Z h, true)
  | (h, UB) => (h, UB, false) | (h, Abort) => (h, Abort, false) | (h, Hang) => (h, Hang, false)
  end.
(** a new object, and 66-68 *)
Definition no_heap : heap := Heap (fun _ => None) 0 false.
Definition new_object (files : store) (hp : heap) : hst := Hst (new_test files) hp [] None None.
Definition destroy (h : hst) : heap := h_heap (fst (h_free h)).
