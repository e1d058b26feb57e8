(** XML character data: replacing the predefined entity references (XML 1.0, section 4.6).
    Used as specification of escaping and as part of the model of the XML parser.
    [None]: not well-formed character data. *)
From Verif Require Import Base Str.

Definition entity (e : str) : option ascii :=
  if eqs e ($"amp") then Some "&"%char
  else if eqs e ($"lt") then Some "<"%char
  else if eqs e ($"gt") then Some ">"%char
  else if eqs e ($"quot") then Some (chr 34)
  else if eqs e ($"apos") then Some (chr 39)
  else None.

(** [ent = Some e]: inside a reference, [e] being the part of its name read so far *)
Fixpoint unescape_from (ent : option str) (s : str) : option str :=
  match s with
  | [] => match ent with None => Some [] | Some _ => None end
  | c :: r =>
      match ent with
      | None => if eqc c "&" then unescape_from (Some []) r
                else if eqc c "<" then None
                else option_map (cons c) (unescape_from None r)
      | Some e => if eqc c ";" then
                    match entity e with
                    | Some x => option_map (cons x) (unescape_from None r)
                    | None => None
                    end
                  else unescape_from (Some (e ++ [c])) r
      end
  end.
Definition unescape (s : str) : option str := unescape_from None s.
