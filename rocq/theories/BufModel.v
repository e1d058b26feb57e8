(** Model of the memory behind measurement objects: /repo/TestingFramework/tfMeasurement.cpp 82-98, 231-315, 327-347, 354-368, 379-464, 472-484, 503-510 and tfMeasurement.h 342, 423, 503-509.
    The functions of MeasModel again, on objects that live in a store, are copied, assigned and destroyed, may be the same object twice, and own the memory block [data] points to.
    A program uses the interface in any order ([op]); it may keep the pointers [GetContentAsData] returns and read through them.
    Simplifications: addresses are not used again, so that a pointer to freed memory is never valid; a std::string gets new storage whenever it is assigned; [malloc] and [new] succeed, except for the size
    a file system reports for a directory ([e_dir]); a new block holds indeterminate bytes; [operator=] is between objects of one class; the arguments of a comparison are evaluated from left to right. *)
From Coq Require Import Floats.SpecFloat.
From Verif Require Import Base Str B64Model MeasModel.

Inductive block := Live (cells : list cell) | Freed.
(** the data members; [o_size]: [dataSize], which the constructors leave indeterminate (331-338); [o_ver]: changes with the storage of the text; [o_local]: made by Load *)
Record obj := Obj { o_name : str; o_esc : bool; o_cls : cls; o_enc : str; o_comp : str; o_text : str; o_ver : nat; o_data : option nat; o_size : option nat; o_local : bool }.
Record bst := Bst { b_heap : list block; b_objs : list (option obj) }.
(** a pointer to a block, or to the characters of an object's text *)
Inductive ptr := PBuf (a : nat) | PText (o v : nat).
(** the bytes given to SetContentAsData: the program's own, or where a pointer points *)
Inductive src := Own (bytes : str) | At (p : ptr).
Record benv := Benv { e_sc : bool; e_fs : str -> source; e_dir : option nat }.

Definition B (A : Type) : Type := bst -> bst * res A.
Definition bret {A} (a : A) : B A := fun s => (s, Ok a).
Definition bfail {A} (r : res A) : B A := fun s => (s, r).
Definition bbind {A C} (m : B A) (k : A -> B C) : B C := fun s =>
  let '(s', r) := m s in
  match r with Ok a => k a s' | Throw e => (s', Throw e) | UB => (s', UB) | Abort => (s', Abort) | Hang => (s', Hang) end.
Notation "x <. m ;; k" := (bbind m (fun x => k)) (at level 61, m at next level, right associativity).

Fixpoint update {A} (n : nat) (x : A) (l : list A) : list A :=
  match l, n with [], _ => [] | _ :: l', 0 => x :: l' | y :: l', S n' => y :: update n' x l' end.

(** * Blocks *)
Definition alloc (cells : list cell) : B nat := fun s => (Bst (b_heap s ++ [Live cells]) (b_objs s), Ok (length (b_heap s))).
Definition free (a : nat) : B unit := fun s =>
  match nth_error (b_heap s) a with Some (Live _) => (Bst (update a Freed (b_heap s)) (b_objs s), Ok tt) | _ => (s, UB) end.
Definition fetch (a : nat) : B (list cell) := fun s => (s, match nth_error (b_heap s) a with Some (Live l) => Ok l | _ => UB end).
Definition store_at (a : nat) (l : list cell) : B unit := fun s =>
  match nth_error (b_heap s) a with Some (Live _) => (Bst (update a (Live l) (b_heap s)) (b_objs s), Ok tt) | _ => (s, UB) end.

(** * Objects *)
Definition get (o : nat) : B obj := fun s => (s, match nth_error (b_objs s) o with Some (Some x) => Ok x | _ => UB end).
Definition put (o : nat) (x : obj) : B unit := fun s => (Bst (b_heap s) (update o (Some x) (b_objs s)), Ok tt).
Definition create (x : obj) : B nat := fun s => (Bst (b_heap s) (b_objs s ++ [Some x]), Ok (length (b_objs s))).
Definition with_data (x : obj) (d n : option nat) : obj := Obj (o_name x) (o_esc x) (o_cls x) (o_enc x) (o_comp x) (o_text x) (o_ver x) d n (o_local x).
Definition with_text (x : obj) (t : str) : obj := Obj (o_name x) (o_esc x) (o_cls x) (o_enc x) (o_comp x) t (S (o_ver x)) (o_data x) (o_size x) (o_local x).
Definition with_name (x : obj) (n : str) : obj := Obj n (o_esc x) (o_cls x) (o_enc x) (o_comp x) (o_text x) (o_ver x) (o_data x) (o_size x) (o_local x).
Definition with_esc (x : obj) (b : bool) : obj := Obj (o_name x) b (o_cls x) (o_enc x) (o_comp x) (o_text x) (o_ver x) (o_data x) (o_size x) (o_local x).
Definition with_enc (x : obj) (n : str) : obj := Obj (o_name x) (o_esc x) (o_cls x) n (o_comp x) (o_text x) (o_ver x) (o_data x) (o_size x) (o_local x).
Definition with_comp (x : obj) (n : str) : obj := Obj (o_name x) (o_esc x) (o_cls x) (o_enc x) n (o_text x) (o_ver x) (o_data x) (o_size x) (o_local x).

(** 82, 331-334 *)
Definition new_obj (local : bool) (c : cls) : obj := Obj [] true c default_enc default_comp [] 0 None None local.
(** 90-92, 336-338, 503-504 *)
Definition copy_obj (x : obj) : obj := Obj (o_name x) (o_esc x) (o_cls x) (o_enc x) (o_comp x) (o_text x) 0 None None false.

(** 411-416 *)
Definition b_Delete (o : nat) : B unit :=
  x <. get o ;;
  _ <. (match o_data x with Some a => free a | None => bret tt end) ;;
  put o (with_data x None (Some 0)).
(** tfMeasurement.h 342, 423 *)
Definition b_SetContent (o : nat) (t : str) : B unit :=
  x <. get o ;; _ <. put o (with_text x t) ;; b_Delete o.
(** 379-409 *)
Definition b_Update (sc : bool) (o : nat) : B unit :=
  _ <. b_Delete o ;;
  x <. get o ;;
  if eqs (o_enc x) ($"none") then bret tt
  else if eqs (o_enc x) ($"base64") then
    n <. bfail (IsBase64 sc default_opts (o_text x)) ;;
    _ <. put o (with_data x None (Some n)) ;;
    match n with
    | 0 => bret tt
    | _ =>
        a <. alloc (repeat None n) ;;
        _ <. put o (with_data x (Some a) (Some n)) ;;
        l <. fetch a ;;
        let '(mem, r) := Decode sc default_opts (o_text x) l in
        _ <. store_at a mem ;;
        bfail (match r with Ok _ => Ok tt | Throw e => Throw e | UB => UB | Abort => Abort | Hang => Hang end)
    end
  else bret tt.
(** 419-420, 428-429 *)
Definition b_ensure (sc : bool) (o : nat) : B unit :=
  x <. get o ;; match o_data x with Some _ => bret tt | None => b_Update sc o end.
(** 418-425 *)
Definition b_GetData (sc : bool) (o : nat) : B ptr :=
  _ <. b_ensure sc o ;;
  x <. get o ;; bret (match o_data x with Some a => PBuf a | None => PText o (o_ver x) end).
(** 427-434 *)
Definition b_GetSize (sc : bool) (o : nat) : B nat :=
  _ <. b_ensure sc o ;;
  x <. get o ;;
  match o_data x with
  | None => bret (length (o_text x))
  | Some _ => match o_size x with Some n => bret n | None => bfail UB end
  end.
(** the bytes from a pointer on; after the text comes its terminating null character *)
Definition look (p : ptr) : B (list cell) :=
  match p with
  | PBuf a => fetch a
  | PText o v => x <. get o ;; if v =? o_ver x then bret (map Some (o_text x ++ [chr 0])) else bfail UB
  end.
(** [memcpy] *)
Definition take_bytes (p : src) (n : nat) : B (list cell) :=
  l <. (match p with Own bytes => bret (map Some bytes) | At p => look p end) ;;
  if n <=? length l then bret (firstn n l) else bfail UB.
Fixpoint known (l : list cell) : option str :=
  match l with [] => Some [] | Some c :: l' => option_map (cons c) (known l') | None :: _ => None end.
(** 436-464 *)
Definition b_SetData (o : nat) (p : src) (n : nat) : B unit :=
  _ <. b_Delete o ;;
  a <. alloc (repeat None n) ;;
  x <. get o ;;
  _ <. put o (with_data x (Some a) (Some n)) ;;
  l <. take_bytes p n ;;
  _ <. store_at a l ;;
  _ <. (if eqs (o_comp x) ($"none") then bret tt else b_Delete o) ;;
  if eqs (o_enc x) ($"none") then bret tt
  else if eqs (o_enc x) ($"base64") then
    x <. get o ;;
    l <. (match o_data x with Some a => fetch a | None => bret [] end) ;;
    t <. bfail (match known l with Some bytes => Encode default_opts bytes | None => UB end) ;;
    b_SetContent o t
  else bret tt.
(** 336-347, 90-98, 503-510: the old block is not freed *)
Definition b_Copy (o : nat) : B nat := x <. get o ;; create (copy_obj x).
Definition b_Assign (o o' : nat) : B unit :=
  m <. get o' ;;
  x <. get o ;; _ <. put o (with_esc (with_name x (o_name m)) (o_esc m)) ;;
  x <. get o ;; _ <. put o (with_data x None (Some 0)) ;;
  m <. get o' ;;
  x <. get o ;; _ <. put o (with_comp (with_enc x (o_enc m)) (o_comp m)) ;;
  m <. get o' ;;
  x <. get o ;; put o (with_text x (o_text m)).
(** 327-329 *)
Definition b_Destroy (o : nat) : B unit :=
  _ <. b_Delete o ;; fun s => (Bst (b_heap s) (update o None (b_objs s)), Ok tt).
(** 472-484, with a data measurement, which may be the same object *)
Definition b_Equal (sc : bool) (o o' : nat) : B bool :=
  x <. get o ;; y <. get o' ;;
  if eqs (o_name x) (o_name y) && eqs (type_of (o_cls x)) (type_of (o_cls y)) then
    n1 <. b_GetSize sc o ;;
    n2 <. b_GetSize sc o' ;;
    if n1 =? n2 then
      p <. b_GetData sc o ;;
      q <. b_GetData sc o' ;;
      n <. b_GetSize sc o ;;
      l <. look p ;; m <. look q ;;
      bfail (memeq n l m)
    else bret false
  else bret false.
(** 231-300; a directory of which the size can be allocated: no byte of it can be read, 292-294 *)
Definition b_Load (e : benv) (f : mf) : B nat :=
  match e_fs e (cstr (ffile f)) with
  | Missing => create (new_obj true CPlain)
  | Unreadable =>
      match e_dir e with
      | None => bfail (Throw ExnRuntime)
      | Some n =>
          buff <. alloc (repeat None n) ;;
          d <. create (new_obj true (match CreateDataMeasurement (ftype f) with Some c => c | None => CPlain end)) ;;
          _ <. b_SetData d (At (PBuf buff)) (if eqs (firstn 4 (ftype f)) ($"text") then 0 else n) ;;
          x <. get d ;; _ <. put d (with_name x (fname f)) ;;
          bfail (Throw ExnRuntime)
      end
  | Bytes bytes =>
      buff <. alloc (map Some bytes) ;;
      d <. create (new_obj true (match CreateDataMeasurement (ftype f) with Some c => c | None => CPlain end)) ;;
      _ <. b_SetData d (At (PBuf buff)) (length bytes) ;;
      x <. get d ;; _ <. put d (with_name x (fname f)) ;;
      _ <. free buff ;;
      bret d
  end.
(** 302-315: [delete dm] is not reached when the comparison throws *)
Definition b_FileEqual (e : benv) (f : mf) (o : nat) : B bool :=
  x <. get o ;;
  if negb (eqs (fname f) (o_name x)) || negb (eqs (ftype f) (type_of (o_cls x))) then bret false
  else d <. b_Load e f ;; v <. b_Equal (e_sc e) o d ;; _ <. b_Destroy d ;; bret v.
Definition b_FilesEqual (e : benv) (f g : mf) : B bool :=
  if negb (eqs (fname f) (fname g)) || negb (eqs (ftype f) (ftype g)) then bret false
  else d <. b_Load e f ;; v <. b_FileEqual e g d ;; _ <. b_Destroy d ;; bret v.

(** * Programs *)
Inductive op :=
| New (c : cls) | CopyOf (o : nat) | Assign (o o' : nat) | Destroy (o : nat)
| SetText (o : nat) (t : str) | SetName (o : nat) (n : str) | SetEscape (o : nat) (b : bool) | SetEncoding (o : nat) (n : str) | SetCompression (o : nat) (n : str)
| SetData (o : nat) (p : src) (n : nat) | GetData (o : nat) | GetSize (o : nat) | ReadAt (p : ptr)
| EqualTo (o o' : nat) | FileEqual (f : mf) (o : nat) | FilesEqual (f g : mf).
Inductive answer := ANone | AObj (o : nat) | APtr (p : ptr) | ASize (n : nat) | ABytes (l : list cell) | ABool (b : bool).
(** handles of the program: not the objects made by Load *)
Definition mine (s : bst) (o : nat) : bool := match nth_error (b_objs s) o with Some (Some x) => negb (o_local x) | _ => false end.
Definition handles (p : op) : list nat :=
  match p with
  | New _ | ReadAt _ | FilesEqual _ _ => []
  | CopyOf o | Destroy o | SetText o _ | SetName o _ | SetEscape o _ | SetEncoding o _ | SetCompression o _ | SetData o _ _ | GetData o | GetSize o | FileEqual _ o => [o]
  | Assign o o' | EqualTo o o' => [o; o']
  end.
Definition bmap {A C} (g : A -> C) (m : B A) : B C := x <. m ;; bret (g x).
Definition attr (o : nat) (g : obj -> obj) : B answer := x <. get o ;; _ <. put o (g x) ;; bret ANone.
Definition perform (e : benv) (p : op) : B answer :=
  match p with
  | New c => bmap AObj (create (new_obj false c))
  | CopyOf o => bmap AObj (b_Copy o)
  | Assign o o' => bmap (fun _ => ANone) (b_Assign o o')
  | Destroy o => bmap (fun _ => ANone) (b_Destroy o)
  | SetText o t => bmap (fun _ => ANone) (b_SetContent o t)
  | SetName o n => attr o (fun x => with_name x n)
  | SetEscape o b => attr o (fun x => with_esc x b)
  | SetEncoding o n => attr o (fun x => with_enc x n)
  | SetCompression o n => attr o (fun x => with_comp x n)
  | SetData o p n => bmap (fun _ => ANone) (b_SetData o p n)
  | GetData o => bmap APtr (b_GetData (e_sc e) o)
  | GetSize o => bmap ASize (b_GetSize (e_sc e) o)
  | ReadAt p => bmap ABytes (look p)
  | EqualTo o o' => bmap ABool (b_Equal (e_sc e) o o')
  | FileEqual f o => bmap ABool (b_FileEqual e f o)
  | FilesEqual f g => bmap ABool (b_FilesEqual e f g)
  end.
Definition nothing : bst := Bst [] [].
(** the pointers an operation is given *)
Definition uses (p : op) : list ptr := match p with SetData _ (At q) _ => [q] | ReadAt q => [q] | _ => [] end.
(** a program's operations on its living objects, one after the other, with pointers it got from GetContentAsData; it catches the exceptions *)
Inductive history (e : benv) : list (op * res answer) -> bst -> Prop :=
| h_start : history e [] nothing
| h_step h s p s' r : history e h s -> forallb (mine s) (handles p) = true -> (forall q, In q (uses p) -> exists o, In (GetData o, Ok (APtr q)) h) ->
    perform e p s = (s', r) -> (exists a, r = Ok a) \/ (exists i, r = Throw i) -> history e (h ++ [(p, r)]) s'.
