(** Independent specification of base64 (RFC 4648, section 4), written on bits. *)
From Verif Require Import Base.

(** The eight bits of a byte, most significant first. *)
Definition byte_bits (c : ascii) : list bool :=
  match c with Ascii b0 b1 b2 b3 b4 b5 b6 b7 => [b7; b6; b5; b4; b3; b2; b1; b0] end.

(** Value of a bit list, most significant first. *)
Definition bits_val (l : list bool) : nat :=
  fold_left (fun acc (b : bool) => 2 * acc + (if b then 1 else 0)) l 0.

(** The alphabet of table 1 of the RFC. *)
Definition alphabet : str :=
  $"ABCDEFGHIJKLMNOPQRSTUVWXYZabcdefghijklmnopqrstuvwxyz0123456789+/".

(** The symbol of a six-bit group. *)
Definition symbol (six : list bool) : ascii := nth (bits_val six) alphabet "?"%char.

(** Cut a bit string in groups of six; an incomplete last group is filled with zero bits on the right. *)
Fixpoint sextets (l : list bool) : list (list bool) :=
  match l with
  | [] => []
  | a :: b :: c :: d :: e :: f :: r => [a; b; c; d; e; f] :: sextets r
  | short => [short ++ repeat false (6 - length short)]
  end.

(** The encoding: symbols of the groups, then [=] up to a multiple of four characters. *)
Definition rfc4648 (data : str) : str :=
  let body := map symbol (sextets (flat_map byte_bits data)) in
  body ++ repeat "="%char ((3 - length data mod 3) mod 3).

(** Decoding side: position of a symbol in the alphabet, as six bits. *)
Definition is_symbol (c : ascii) : bool := existsb (eqc c) alphabet.
Definition is_space (c : ascii) : bool := (8 <=? code c) && (code c <=? 13).

Fixpoint index_of (c : ascii) (l : str) : nat :=
  match l with [] => 0 | x :: l' => if eqc c x then 0 else S (index_of c l') end.
Definition six_bits (n : nat) : list bool :=
  map (fun k => Nat.testbit n k) [5; 4; 3; 2; 1; 0].
Definition symbol_bits (c : ascii) : list bool := six_bits (index_of c alphabet).

(** Cut a bit string in bytes; an incomplete last group is dropped. *)
Fixpoint octets (l : list bool) : str :=
  match l with
  | a :: b :: c :: d :: e :: f :: g :: h :: r => Ascii h g f e d c b a :: octets r
  | _ => []
  end.

(** Characters that remain once ignorable ones are removed. *)
Definition significant (ignore_invalids : bool) (c : ascii) : bool :=
  negb (is_space c) && (is_symbol c || eqc c "="%char || negb ignore_invalids).

(** Decoded value of a list of symbols. *)
Definition decoded (l : str) : str := octets (flat_map symbol_bits l).

(** * How far a reader scans

    [sig ign s]: the significant characters; they split in leading symbols and a rest. *)
Definition sig (ign : bool) (s : str) : str := filter (significant ign) s.
Fixpoint takew (p : ascii -> bool) (l : str) : str :=
  match l with [] => [] | x :: l' => if p x then x :: takew p l' else [] end.
Fixpoint dropw (p : ascii -> bool) (l : str) : str :=
  match l with [] => [] | x :: l' => if p x then dropw p l' else l end.
Definition leading (ign : bool) (s : str) : str := takew is_symbol (sig ign s).
Definition remainder (ign : bool) (s : str) : str := dropw is_symbol (sig ign s).
(** number of [=] that complete the last group of four (four if the group is empty) *)
Definition fill (d : str) : nat := 4 - length d mod 4.

(** The reader has stopped before the end of [s] (or exactly there): the symbols are followed by
    something other than an incomplete run of [=]. *)
Definition stopped (ign : bool) (s : str) : bool :=
  match remainder ign s with
  | [] => false
  | r => negb (forallb (eqc "="%char) r && (length r <? fill (leading ign s)))
  end.

(** Number of symbols of a base64 text; 0 if it is not one.  Padding must complete the last group,
    and whatever follows the completed padding is ignored. *)
Definition symbol_count (ign : bool) (s : str) : nat :=
  let d := leading ign s in
  match remainder ign s with
  | [] => if length d mod 4 =? 0 then length d else 0
  | r => if eqs (firstn (fill d) r) (repeat "="%char (fill d)) then length d else 0
  end.

Definition seven_bit (s : str) : Prop := forall c, In c s -> code c < 128.
