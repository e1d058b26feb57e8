(** Environment model: the XML parser (expat, [XML_ParserCreate("US-ASCII")]), as used by
    /repo/TestingFramework/tfRegressionTest.cpp 725-784.  This is not code of the repository.

    The parser is a machine that reads one character at a time and emits events.  Covered: the XML declaration the
    framework writes, comments, elements with attributes, character data, the five predefined entity references, line end
    and attribute value normalisation, well-formedness errors.  Not covered: any other declaration or processing
    instruction, document type declarations, CDATA sections, numeric character references, and documents with a NUL or a
    byte above 127.  For those the machine stops in [MOther] and an arbitrary given function [ext] supplies the events and
    the verdict, so that nothing is assumed about them. *)
From Verif Require Import Base Str XmlText.

Inductive event : Type :=
| EStart (name : str) (attrs : list (str * str))
| EEnd (name : str)
| EData (s : str).

Inductive mode : Type :=
| MText (br : nat) (cr : bool)     (* [br]: number of "]" just read (at most 2); [cr]: a carriage return was just read *)
| MEnt (e : str)                   (* in an entity reference in the text *)
| MLt                              (* after "<" *)
| MBang (d : nat)                  (* after "<!" and [d] dashes *)
| MComment (d : nat)               (* in a comment, after [d] dashes *)
| MName (n : str)                  (* in the name of a start tag *)
| MTag (n : str) (al : list (str * str)) (sp : bool) (* in a start tag; [sp]: after white space *)
| MAtt (n : str) (al : list (str * str)) (a : str)   (* in an attribute name *)
| MEq (n : str) (al : list (str * str)) (a : str)    (* before "=" *)
| MQuote (n : str) (al : list (str * str)) (a : str) (* after "=" *)
| MVal (n : str) (al : list (str * str)) (a : str) (q : ascii) (v : str) (cr : bool)
| MValEnt (n : str) (al : list (str * str)) (a : str) (q : ascii) (v e : str)
| MSlash (n : str) (al : list (str * str))           (* after "/" in a start tag *)
| MClose (n : str)                 (* in the name of an end tag *)
| MCloseSp (n : str)               (* after it *)
| MBad                             (* not well-formed *)
| MOther.                          (* a construct outside this model *)

(** [open]: names of the open elements; [root]: the document element has been seen *)
Record pstate := PState { pmode : mode; popen : list str; proot : bool }.

Definition dquote : ascii := chr 34.
Definition squote : ascii := chr 39.
Definition is_xspace (c : ascii) : bool := (code c =? 32) || (code c =? 9) || (code c =? 10) || (code c =? 13).
Definition is_alpha (c : ascii) : bool :=
  (65 <=? code c) && (code c <=? 90) || (97 <=? code c) && (code c <=? 122).
Definition name_start (c : ascii) : bool := is_alpha c || eqc c "_" || eqc c ":".
Definition name_char (c : ascii) : bool :=
  name_start c || (48 <=? code c) && (code c <=? 57) || eqc c "-" || eqc c ".".
(** control characters are not XML characters *)
Definition xml_char (c : ascii) : bool := (32 <=? code c) || is_xspace c.
Definition has_attr (a : str) (al : list (str * str)) : bool := existsb (fun p => eqs (fst p) a) al.

Definition stext : mode := MText 0 false.
(** the element [n] with attributes [al] is opened *)
Definition open_elem (st : pstate) (n : str) (al : list (str * str)) : pstate * list event :=
  (PState stext (n :: popen st) true, [EStart n al]).
Definition bad (st : pstate) : pstate * list event := (PState MBad (popen st) (proot st), []).
Definition other (st : pstate) : pstate * list event := (PState MOther (popen st) (proot st), []).
Definition go (st : pstate) (m : mode) : pstate * list event := (PState m (popen st) (proot st), []).
(** the innermost element is closed by an end tag named [n] *)
Definition close_elem (st : pstate) (n : str) : pstate * list event :=
  match popen st with
  | o :: os => if eqs o n then (PState stext os (proot st), [EEnd n]) else bad st
  | [] => bad st
  end.

Definition step (st : pstate) (c : ascii) : pstate * list event :=
  match pmode st with
  | MBad => bad st
  | MOther => other st
  | MText br cr =>
      if negb (xml_char c) then bad st
      else if eqc c "<" then go st MLt
      else match popen st with
      | [] => if is_xspace c then go st stext else bad st          (* outside the document element *)
      | _ =>
          if eqc c "&" then go st (MEnt [])
          else if code c =? 13 then (PState (MText 0 true) (popen st) (proot st), [EData [nl]])
          else if eqc c nl && cr then go st stext
          else if eqc c ">" && (br =? 2) then bad st
          else (PState (MText (if eqc c "]" then Nat.min 2 (S br) else 0) false) (popen st) (proot st), [EData [c]])
      end
  | MEnt e =>
      if eqc c ";" then
        match entity e with
        | Some x => (PState stext (popen st) (proot st), [EData [x]])
        | None => bad st
        end
      else if eqc c "#" && eqs e [] then other st
      else if match e with [] => name_start c | _ => name_char c end then go st (MEnt (e ++ [c]))
      else bad st
  | MLt =>
      if eqc c "?" then other st
      else if eqc c "!" then go st (MBang 0)
      else if eqc c "/" then go st (MClose [])
      else if name_start c && negb (match popen st with [] => proot st | _ => false end) then go st (MName [c])
      else bad st
  | MBang 0 => if eqc c "-" then go st (MBang 1) else other st
  | MBang _ => if eqc c "-" then go st (MComment 0) else bad st
  | MComment d =>
      if negb (xml_char c) then bad st
      else match d with
      | 0 => go st (MComment (if eqc c "-" then 1 else 0))
      | 1 => go st (MComment (if eqc c "-" then 2 else 0))
      | _ => if eqc c ">" then go st stext else bad st
      end
  | MName n =>
      if name_char c then go st (MName (n ++ [c]))
      else if is_xspace c then go st (MTag n [] true)
      else if eqc c ">" then open_elem st n []
      else if eqc c "/" then go st (MSlash n [])
      else bad st
  | MTag n al sp =>
      if is_xspace c then go st (MTag n al true)
      else if eqc c ">" then open_elem st n al
      else if eqc c "/" then go st (MSlash n al)
      else if sp && name_start c then go st (MAtt n al [c])
      else bad st
  | MAtt n al a =>
      if name_char c then go st (MAtt n al (a ++ [c]))
      else if is_xspace c then go st (MEq n al a)
      else if eqc c "=" then go st (MQuote n al a)
      else bad st
  | MEq n al a =>
      if is_xspace c then go st (MEq n al a)
      else if eqc c "=" then go st (MQuote n al a)
      else bad st
  | MQuote n al a =>
      if is_xspace c then go st (MQuote n al a)
      else if eqc c dquote || eqc c squote then go st (MVal n al a c [] false)
      else bad st
  | MVal n al a q v cr =>
      if negb (xml_char c) then bad st
      else if eqc c q then if has_attr a al then bad st else go st (MTag n (al ++ [(a, v)]) false)
      else if eqc c "<" then bad st
      else if eqc c "&" then go st (MValEnt n al a q v [])
      else if eqc c nl && cr then go st (MVal n al a q v false)
      else if is_xspace c then go st (MVal n al a q (v ++ [" "%char]) (code c =? 13))
      else go st (MVal n al a q (v ++ [c]) false)
  | MValEnt n al a q v e =>
      if eqc c ";" then
        match entity e with
        | Some x => go st (MVal n al a q (v ++ [x]) false)
        | None => bad st
        end
      else if eqc c "#" && eqs e [] then other st
      else if match e with [] => name_start c | _ => name_char c end then go st (MValEnt n al a q v (e ++ [c]))
      else bad st
  | MSlash n al =>
      if eqc c ">" then (PState stext (popen st) true, [EStart n al; EEnd n]) else bad st
  | MClose n =>
      if match n with [] => name_start c | _ => name_char c end then go st (MClose (n ++ [c]))
      else match n with
           | [] => bad st
           | _ => if is_xspace c then go st (MCloseSp n) else if eqc c ">" then close_elem st n else bad st
           end
  | MCloseSp n =>
      if is_xspace c then go st (MCloseSp n) else if eqc c ">" then close_elem st n else bad st
  end.

Fixpoint feed (st : pstate) (s : str) : pstate * list event :=
  match s with
  | [] => (st, [])
  | c :: r => let '(st1, e1) := step st c in let '(st2, e2) := feed st1 r in (st2, e1 ++ e2)
  end.

(** the declaration the framework writes *)
Definition xml_decl : str := $"<?xml version=" ++ [dquote] ++ $"1.0" ++ [dquote] ++ $" encoding=" ++ [dquote] ++ $"US-ASCII" ++ [dquote] ++ $"?>".
Fixpoint strip_prefix (p s : str) : option str :=
  match p, s with
  | [], _ => Some s
  | x :: p', y :: s' => if eqc x y then strip_prefix p' s' else None
  | _, [] => None
  end.
Definition pinit : pstate := PState stext [] false.
(** the document was read completely *)
Definition complete (st : pstate) : bool :=
  match pmode st, popen st with MText _ _, [] => proot st | _, _ => false end.
Definition supported_bytes (s : str) : bool := forallb (fun c => (0 <? code c) && (code c <? 128)) s.

(** events and verdict for a whole document *)
Definition expat (ext : str -> list event * bool) (s : str) : list event * bool :=
  if supported_bytes s then
    let '(st, evs) := feed pinit (match strip_prefix xml_decl s with Some r => r | None => s end) in
    match pmode st with MOther => ext s | _ => (evs, complete st) end
  else ext s.
