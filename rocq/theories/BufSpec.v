(** What the theorems on the memory behind measurement objects speak of. *)
From Coq Require Import Floats.SpecFloat.
From Verif Require Import Base Str B64Model MeasModel BufModel.

(** the object as MeasModel has it: attributes, text and the bytes of its buffer *)
Definition bytes_of (s : bst) (x : obj) : option (list cell) :=
  match o_data x with Some a => match nth_error (b_heap s) a with Some (Live l) => Some l | _ => None end | None => None end.
Definition value (s : bst) (o : nat) : option dm :=
  match nth_error (b_objs s) o with Some (Some x) => Some (Dm (o_name x) (o_esc x) (o_cls x) (o_enc x) (o_comp x) (o_text x) (bytes_of s x)) | _ => None end.
(** memory that is allocated *)
Definition allocated (s : bst) (a : nat) : Prop := exists l, nth_error (b_heap s) a = Some (Live l).
(** by the program's living objects *)
Definition buffer_of (s : bst) (o a : nat) : Prop := mine s o = true /\ exists x, nth_error (b_objs s) o = Some (Some x) /\ o_data x = Some a.
Definition stray (s : bst) (a : nat) : Prop := allocated s a /\ forall o, ~ buffer_of s o a.
(** an object that Load made and nothing deletes any more *)
Definition orphan (s : bst) (k : nat) : Prop := exists x, nth_error (b_objs s) k = Some (Some x) /\ o_local x = true.
(** a pointer and the bytes there *)
Definition points (s : bst) (q : ptr) (l : list cell) : Prop := look q s = (s, Ok l).

(** * The values the operations have by MeasModel *)
Definition assigned (d m : dm) : dm := Dm (dname m) (desc m) (dcls d) (denc m) (dcomp m) (dcontent m) None.
Definition answered {A} (g : A -> answer) (r : res A) : res answer := match r with Ok a => Ok (g a) | Throw i => Throw i | UB => UB | Abort => Abort | Hang => Hang end.
Definition none {A} (_ : A) : answer := ANone.
(** the bytes SetContentAsData is given: in reach, and not those it is about to free *)
Definition given (s : bst) (o : nat) (p : src) (n : nat) (bytes : str) : Prop :=
  match p with
  | Own b => n <= length b /\ bytes = firstn n b
  | At q => (forall a, q = PBuf a -> ~ buffer_of s o a) /\ exists l, points s q l /\ n <= length l /\ map Some bytes = firstn n l
  end.
Definition does (e : benv) (p : op) (s s' : bst) (r : res answer) : Prop :=
  match p with
  | New c => exists o, r = Ok (AObj o) /\ value s o = None /\ mine s' o = true /\ value s' o = Some (new_dm c)
  | CopyOf o => forall d, value s o = Some d -> exists k, r = Ok (AObj k) /\ value s k = None /\ mine s' k = true /\ value s' k = Some (Copy d) /\ value s' o = Some d
  | Assign o o' => forall d m, value s o = Some d -> value s o' = Some m -> r = Ok ANone /\ value s' o = Some (assigned d m) /\ (o' <> o -> value s' o' = Some m)
  | Destroy o => r = Ok ANone /\ value s' o = None
  | SetText o t => forall d, value s o = Some d -> r = Ok ANone /\ value s' o = Some (SetContent d t)
  | SetName o n => forall d, value s o = Some d -> r = Ok ANone /\ value s' o = Some (SetAttributeName d n)
  | SetEscape o b => forall d, value s o = Some d -> r = Ok ANone /\ value s' o = Some (Dm (dname d) b (dcls d) (denc d) (dcomp d) (dcontent d) (ddata d))
  | SetEncoding o n => forall d, value s o = Some d -> r = Ok ANone /\ value s' o = Some (SetAttributeEncoding d n)
  | SetCompression o n => forall d, value s o = Some d -> r = Ok ANone /\ value s' o = Some (SetAttributeCompression d n)
  | SetData o p n => forall d bytes, value s o = Some d -> given s o p n bytes -> r = answered none (snd (SetContentAsData d bytes)) /\ value s' o = Some (fst (SetContentAsData d bytes))
  | GetData o => forall d, value s o = Some d -> value s' o = Some (fst (GetContentAsData (e_sc e) d)) /\
      match snd (GetContentAsData (e_sc e) d) with
      | Ok l => exists q, r = Ok (APtr q) /\ (points s' q l \/ points s' q (l ++ [Some (chr 0)]))
      | other => r = answered ABytes other
      end
  | GetSize o => forall d, value s o = Some d -> r = answered ASize (snd (GetContentAsDataSize (e_sc e) d)) /\ value s' o = Some (fst (GetContentAsDataSize (e_sc e) d))
  | ReadAt q => s' = s /\ forall l, points s q l -> r = Ok (ABytes l)
  | EqualTo o o' => forall d m, value s o = Some d -> value s o' = Some m -> let '(d', m', v) := data_IsEqual (e_sc e) d m in
      r = answered ABool v /\ value s' o = Some d' /\ (o' <> o -> value s' o' = Some m')
  | FileEqual f o => forall d, value s o = Some d -> let '(d', v) := file_IsEqual_data (e_sc e) (e_fs e) f d in r = answered ABool v /\ value s' o = Some d'
  | FilesEqual f g => r = answered ABool (file_IsEqual_file (e_sc e) (e_fs e) f g)
  end.

(** * What an operation leaves without an owner: blocks and objects *)
Definition raised (r : res answer) : bool := match r with Throw _ => true | _ => false end.
(** by a comparison with a directory: the buffer for the file, the object's buffer, and the object *)
Definition of_directory (e : benv) : nat * nat := match e_dir e with Some _ => (2, 1) | None => (0, 0) end.
Definition of_file (e : benv) (f : mf) : nat * nat := match e_fs e (cstr (ffile f)) with Missing => (0, 1) | Bytes _ => (1, 1) | Unreadable => of_directory e end.
Definition both (a b : nat * nat) : nat * nat := (fst a + fst b, snd a + snd b).
Definition loses (e : benv) (s : bst) (p : op) (r : res answer) : nat * nat :=
  match p with
  | Assign o _ => match value s o with Some d => match ddata d with Some _ => (1, 0) | None => (0, 0) end | None => (0, 0) end
  | FileEqual f _ => if raised r then of_file e f else (0, 0)
  | FilesEqual f g => if raised r then match e_fs e (cstr (ffile f)) with Unreadable => of_directory e | _ => both (of_file e f) (of_directory e) end else (0, 0)
  | _ => (0, 0)
  end.
(** of a list of operations *)
Fixpoint bill (e : benv) (ops : list op) (s : bst) : nat * nat :=
  match ops with [] => (0, 0) | p :: l => let '(s', r) := perform e p s in both (loses e s p r) (bill e l s') end.
