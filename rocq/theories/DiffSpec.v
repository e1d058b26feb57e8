(** What a line difference means, independent of how it is computed.
    (The record [edit] of the model is only used as a data type.) *)
From Verif Require Import Base Str Dec DiffModel.
Local Open Scope Z_scope.

(** The lines of a text: the pieces between new-lines (a final new-line is
    followed by an empty last line). *)
Definition lines (s : str) : list str := split nl s.

(** The elements a, a+1, ..., b-1 of a list. *)
Definition slice {A} (a b : Z) (l : list A) : list A :=
  firstn (Z.to_nat (b - a)) (skipn (Z.to_nat a) l).

(** Carrying out edits: an edit replaces [deleted] elements of [from]
    starting at [line0] by the [inserted] elements of [to] starting at
    [line1]; everything else of [from] is kept. *)
Fixpoint apply_edits {A} (pos : Z) (from to : list A) (es : list edit) : list A :=
  match es with
  | [] => skipn (Z.to_nat pos) from
  | e :: r => slice pos (line0 e) from ++ slice (line1 e) (line1 e + inserted e) to
              ++ apply_edits (line0 e + deleted e) from to r
  end.

(** Well-formed scripts: [x], [y] are the positions reached in the two
    sequences; the elements passed over are the same in both; an edit does
    something; after an edit at least one common element follows before the
    next ([strict]); behind the last edit the rests agree. *)
Fixpoint well_formed {A} (strict : bool) (x y : Z) (from to : list A) (es : list edit) : Prop :=
  match es with
  | [] => 0 <= x <= Z.of_nat (length from) /\ 0 <= y <= Z.of_nat (length to) /\
          skipn (Z.to_nat x) from = skipn (Z.to_nat y) to
  | e :: r =>
      (if strict then x < line0 e else x <= line0 e) /\
      line0 e - x = line1 e - y /\
      slice x (line0 e) from = slice y (line1 e) to /\
      0 <= inserted e /\ 0 <= deleted e /\ 0 < inserted e + deleted e /\
      line0 e + deleted e <= Z.of_nat (length from) /\
      line1 e + inserted e <= Z.of_nat (length to) /\
      well_formed true (line0 e + deleted e) (line1 e + inserted e) from to r
  end.

(** ** Reading a printed difference ("normal" format) and applying it *)

(** A non-negative decimal number at the front of a text. *)
Definition parse_num (s : str) : option (Z * str) :=
  match digit_prefix s with
  | [] => None
  | ds => Some (digits_value 0 ds, skipn (length ds) s)
  end.
(** "a,b", or "a" standing for "a,a". *)
Definition parse_range (s : str) : option (Z * Z * str) :=
  match parse_num s with
  | Some (a, c :: r) =>
      if eqc c "," then match parse_num r with Some (b, r') => Some (a, b, r') | None => None end
      else Some (a, a, c :: r)
  | Some (a, []) => Some (a, a, [])
  | None => None
  end.
(** A command line: range, letter, range. *)
Definition parse_cmd (s : str) : option (Z * Z * ascii * (Z * Z)) :=
  match parse_range s with
  | Some (a, b, k :: r) =>
      match parse_range r with Some (c, d, []) => Some (a, b, k, (c, d)) | _ => None end
  | _ => None
  end.

(** The first [n] elements and the rest; fails if there are too few. *)
Definition take {A} (n : Z) (l : list A) : option (list A * list A) :=
  if (0 <=? n) && (n <=? Z.of_nat (length l)) then Some (firstn (Z.to_nat n) l, skipn (Z.to_nat n) l) else None.
(** Removing a prefix from a line. *)
Fixpoint strip (p s : str) : option str :=
  match p, s with
  | [], _ => Some s
  | a :: p', b :: s' => if eqc a b then strip p' s' else None
  | _ :: _, [] => None
  end.
Fixpoint strip_all (p : str) (ls : list str) : option (list str) :=
  match ls with
  | [] => Some []
  | l :: r => match strip p l, strip_all p r with Some l', Some r' => Some (l' :: r') | _, _ => None end
  end.
(** The next [n] lines of the difference, each beginning with [p]. *)
Definition take_marked (p : str) (n : Z) (ds : list str) : option (list str * list str) :=
  match take n ds with
  | Some (a, r) => match strip_all p a with Some a' => Some (a', r) | None => None end
  | None => None
  end.

Fixpoint eq_lines (a b : list str) : bool :=
  match a, b with
  | [], [] => true
  | x :: a', y :: b' => eqs x y && eq_lines a' b'
  | _, _ => false
  end.

(** Applying the lines [ds] of a difference: [from] is what is left of the
    first text, [p] lines of it being already consumed and [q] lines of
    output produced.  Positions are checked, and so are the deleted lines.
    "LaR": after line L of the first text add lines R of the second;
    "RdL": delete lines R, which would have been at line L;
    "FcT": replace lines F by the lines T of the second. *)
Fixpoint patch_lines (fuel : nat) (p q : Z) (from ds : list str) : option (list str) :=
  match fuel with
  | O => None
  | S f =>
      match ds with
      | [] => None
      | [[]] => Some from
      | cmd :: r =>
          match parse_cmd cmd with
          | None => None
          | Some (a, b, k, (c, d)) =>
              if eqc k "a" then
                match take (a - p) from, take_marked $"> " (d - c + 1) r with
                | Some (kept, from'), Some (new, r') =>
                    if (a =? b) && (c =? q + (a - p) + 1) then
                      match patch_lines f a d from' r' with
                      | Some t => Some (kept ++ new ++ t) | None => None end
                    else None
                | _, _ => None
                end
              else if eqc k "d" then
                match take (a - 1 - p) from, take_marked $"< " (b - a + 1) r with
                | Some (kept, from'), Some (old, r') =>
                    match take (b - a + 1) from' with
                    | Some (gone, from'') =>
                        if (c =? d) && (c =? q + (a - 1 - p) + 1) && eq_lines old gone then
                          match patch_lines f b (c - 1) from'' r' with
                          | Some t => Some (kept ++ t) | None => None end
                        else None
                    | None => None
                    end
                | _, _ => None
                end
              else if eqc k "c" then
                match take (a - 1 - p) from, take_marked $"< " (b - a + 1) r with
                | Some (kept, from'), Some (old, sep :: r') =>
                    match take (b - a + 1) from', take_marked $"> " (d - c + 1) r' with
                    | Some (gone, from''), Some (new, r'') =>
                        if (c =? q + (a - 1 - p) + 1) && eq_lines old gone && eqs sep $"----" then
                          match patch_lines f b d from'' r'' with
                          | Some t => Some (kept ++ new ++ t) | None => None end
                        else None
                    | _, _ => None
                    end
                | _, _ => None
                end
              else None
          end
      end
  end.

(** Applying the printed difference [d] to the text [s]. *)
Definition patch (d s : str) : option str :=
  match patch_lines (S (length d)) 0 0 (lines s) (lines d) with
  | Some ls => Some (join nl ls)
  | None => None
  end.

Example patch_ex : patch $"2c2
< b
----
> x
3a4
> d
" $"a
b
c" = Some $"a
x
c
d".
Proof. vm_compute. reflexivity. Qed.
