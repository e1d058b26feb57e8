(** Model of the line difference, /repo/TestingFramework/tfDiff.cpp.

    [ptrdiff_t] and [size_t] quantities that are indices or counts are [Z]
    without wrap-around; the only narrow one, [partition::length] (unsigned
    int), keeps its truncation.  The hash values keep their 64-bit
    wrap-around.  [new] is assumed to succeed, and [delete] is not modelled.
    Loops carry explicit fuel; running out of it is [Hang]. *)
From Verif Require Import Base Str Dec.
Local Open Scope Z_scope.

(** ** Memory *)

(** The diagonals buffer, tfDiff.cpp:53, 470: a block of [n] [ptrdiff_t]s;
    [None] is a never-written (indeterminate) element. *)
Definition arr := Z -> option Z.
Definition rda (n : Z) (A : arr) (i : Z) : res Z :=
  if (0 <=? i) && (i <? n) then match A i with Some v => Ok v | None => UB end else UB.
Definition upd (A : arr) (i v : Z) : arr := fun j => if j =? i then Some v else A j.
Definition wra (n : Z) (A : arr) (i v : Z) : res arr :=
  if (0 <=? i) && (i <? n) then Ok (upd A i v) else UB.

(** Reading the id vectors, tfDiff.cpp:116-117, 213-214: [oob] says what a
    read outside the array gives: [None] undefined behaviour, [Some f] the
    (unspecified) value [f i]. *)
Definition vread (oob : option (Z -> Z)) (v : list Z) (i : Z) : res Z :=
  if (0 <=? i) && (i <? Z.of_nat (length v)) then Ok (nth (Z.to_nat i) v 0)
  else match oob with None => UB | Some f => Ok (f i) end.

(** struct edit, tfDiff.cpp:30-43. *)
Record edit : Set := mkedit { line0 : Z; line1 : Z; inserted : Z; deleted : Z }.

(** struct partition, tfDiff.cpp:20-24: (xmid, ymid, length). *)
Definition partition : Set := (Z * Z * Z)%type.
(** [length] is an unsigned int, tfDiff.cpp:22. *)
Definition u32 (z : Z) : Z := z mod 4294967296.

(** ** FindEditMidPoint, tfDiff.cpp:95-204 *)

(** tfDiff.cpp:148-149: [while (x < xend && y < yend && xvec[x] == yvec[y]) ++x, ++y;] *)
Fixpoint fsnake (fuel : nat) (xv yv : list Z) (xe ye x y : Z) : res (Z * Z) :=
  match fuel with
  | O => Hang
  | S f =>
      if (x <? xe) && (y <? ye) then
        a <-- vread None xv x ;; b <-- vread None yv y ;;
        if a =? b then fsnake f xv yv xe ye (x + 1) (y + 1) else Ok (x, y)
      else Ok (x, y)
  end.

(** tfDiff.cpp:181-182: [while (x > xbegin && y > ybegin && xvec[x-1] == yvec[y-1]) --x, --y;] *)
Fixpoint bsnake (fuel : nat) (xv yv : list Z) (xb yb x y : Z) : res (Z * Z) :=
  match fuel with
  | O => Hang
  | S f =>
      if (xb <? x) && (yb <? y) then
        a <-- vread None xv (x - 1) ;; b <-- vread None yv (y - 1) ;;
        if a =? b then bsnake f xv yv xb yb (x - 1) (y - 1) else Ok (x, y)
      else Ok (x, y)
  end.

(** tfDiff.cpp:138-161, the forward loop over the diagonals; [fo], [bo] are
    the offsets of [fdiag], [bdiag] in the buffer of [n] elements. *)
Fixpoint floop (fuel : nat) (n fo bo : Z) (xv yv : list Z) (xe ye : Z) (odd : bool)
    (fmin bmin bmax len k : Z) (D : arr) : res (arr * option partition) :=
  match fuel with
  | O => Hang
  | S f =>
      if k <? fmin then Ok (D, None) else
      lo <-- rda n D (fo + (k - 1)) ;; hi <-- rda n D (fo + (k + 1)) ;;
      let x := if lo <? hi then hi else lo + 1 in
      ' (x, y) <-- fsnake (S (Z.to_nat (xe - x))) xv yv xe ye x (x - k) ;;
      D <-- wra n D (fo + k) x ;;
      if odd && (bmin <=? k) && (k <=? bmax) then
        b <-- rda n D (bo + k) ;;
        if b <=? x then Ok (D, Some (x, y, u32 (2 * len - 1)))
        else floop f n fo bo xv yv xe ye odd fmin bmin bmax len (k - 2) D
      else floop f n fo bo xv yv xe ye odd fmin bmin bmax len (k - 2) D
  end.

(** tfDiff.cpp:171-194, the backward loop over the diagonals. *)
Fixpoint bloop (fuel : nat) (n fo bo : Z) (xv yv : list Z) (xb yb : Z) (odd : bool)
    (bmin fmin fmax len k : Z) (D : arr) : res (arr * option partition) :=
  match fuel with
  | O => Hang
  | S f =>
      if k <? bmin then Ok (D, None) else
      lo <-- rda n D (bo + (k - 1)) ;; hi <-- rda n D (bo + (k + 1)) ;;
      let x := if hi <=? lo then hi - 1 else lo in
      ' (x, y) <-- bsnake (S (Z.to_nat (x - xb))) xv yv xb yb x (x - k) ;;
      D <-- wra n D (bo + k) x ;;
      if negb odd && (fmin <=? k) && (k <=? fmax) then
        v <-- rda n D (fo + k) ;;
        if x <=? v then Ok (D, Some (x, y, u32 (2 * len)))
        else bloop f n fo bo xv yv xb yb odd bmin fmin fmax len (k - 2) D
      else bloop f n fo bo xv yv xb yb odd bmin fmin fmax len (k - 2) D
  end.

(** tfDiff.cpp:129-202, the loop over [length]. *)
Fixpoint mloop (fuel : nat) (n fo bo : Z) (xv yv : list Z) (xb xe yb ye dmin dmax : Z) (odd : bool)
    (len fmin fmax bmin bmax : Z) (D : arr) : res (partition * arr) :=
  match fuel with
  | O => Hang
  | S f =>
      D <-- (if dmin <=? fmin then wra n D (fo + (fmin - 1)) (xb - 1) else Ok D) ;;
      D <-- (if fmax <=? dmax then wra n D (fo + (fmax + 1)) (xb - 1) else Ok D) ;;
      ' (D, p) <-- floop (S (Z.to_nat (fmax - fmin + 1))) n fo bo xv yv xe ye odd fmin bmin bmax len fmax D ;;
      match p with
      | Some p => Ok (p, D)
      | None =>
          let fmin := if dmin <? fmin then fmin - 1 else fmin in
          let fmax := if fmax <? dmax then fmax + 1 else fmax in
          D <-- (if dmin <=? bmin then wra n D (bo + (bmin - 1)) (xe + 1) else Ok D) ;;
          D <-- (if bmax <=? dmax then wra n D (bo + (bmax + 1)) (xe + 1) else Ok D) ;;
          ' (D, p) <-- bloop (S (Z.to_nat (bmax - bmin + 1))) n fo bo xv yv xb yb odd bmin fmin fmax len bmax D ;;
          match p with
          | Some p => Ok (p, D)
          | None =>
              let fmin := if fmin <? dmin then fmin + 2 else fmin in
              let fmax := if dmax <? fmax then fmax - 2 else fmax in
              let bmin := if dmin <? bmin then bmin - 1 else bmin + 1 in
              let bmax := if bmax <? dmax then bmax + 1 else bmax - 1 in
              mloop f n fo bo xv yv xb xe yb ye dmin dmax odd (len + 1) fmin fmax bmin bmax D
          end
      end
  end.

(** tfDiff.cpp:95-126.  The C++ loop has no bound; the model gives it
    (xend - xbegin) + (yend - ybegin) + 3 rounds and [Hang]s beyond. *)
Definition FindEditMidPoint (n : Z) (xv yv : list Z) (xb xe yb ye : Z) (D : arr) : res (partition * arr) :=
  let dmin := xb - ye in
  let dmax := xe - yb in
  let fmid := xb - yb in
  let bmid := xe - ye in
  let odd := Z.odd (fmid - bmid) in
  let fo := - dmin + 1 in
  let bo := (dmax - dmin + 3) - dmin + 1 in
  D <-- wra n D (fo + fmid) xb ;;
  D <-- wra n D (bo + bmid) xe ;;
  mloop (Z.to_nat ((xe - xb) + (ye - yb) + 3)) n fo bo xv yv xb xe yb ye dmin dmax odd 0 fmid fmid bmid bmid D.

(** ** GenerateEditList, tfDiff.cpp:208-299 *)

(** tfDiff.cpp:247-248: eating the snake before the mid point. *)
Fixpoint eat_back (fuel : nat) (xv yv : list Z) (xb yb x y : Z) : res (Z * Z) :=
  match fuel with
  | O => Hang
  | S f =>
      if negb (x =? xb) && negb (y =? yb) then
        a <-- vread None xv (x - 1) ;; b <-- vread None yv (y - 1) ;;
        if a =? b then eat_back f xv yv xb yb (x - 1) (y - 1) else Ok (x, y)
      else Ok (x, y)
  end.

(** tfDiff.cpp:253-254: eating the snake after the mid point; also
    tfDiff.cpp:482-483. *)
Fixpoint eat_fwd (fuel : nat) (xv yv : list Z) (xe ye x y : Z) : res (Z * Z) :=
  match fuel with
  | O => Hang
  | S f =>
      if negb (x =? xe) && negb (y =? ye) then
        a <-- vread None xv x ;; b <-- vread None yv y ;;
        if a =? b then eat_fwd f xv yv xe ye (x + 1) (y + 1) else Ok (x, y)
      else Ok (x, y)
  end.

(** A failed [assert], tfDiff.cpp:218, 221-222, 259, 278. *)
Definition assert_ (b : bool) : res unit := if b then Ok tt else Abort.

(** tfDiff.cpp:259-272: joining the two halves; adjacent edits are merged. *)
Definition back (l : list edit) : edit := last l (mkedit 0 0 0 0).
Definition merge_edits (l1 l2 : list edit) : res (list edit) :=
  match l1, l2 with
  | _ :: _, f2 :: r2 =>
      let b1 := back l1 in
      if (line0 b1 + deleted b1 =? line0 f2) && (line1 b1 + inserted b1 =? line1 f2) then
        Ok (removelast l1 ++ mkedit (line0 b1) (line1 b1) (inserted b1 + inserted f2) (deleted b1 + deleted f2) :: r2)
      else Ok (l1 ++ l2)
  | _, _ => Abort
  end.

(** [asserts] is false for an NDEBUG build (the asserts and their reads of
    the vectors are compiled away); [oob] as for [vread]: it is only passed
    on to the three reads that the code performs before testing the range
    (tfDiff.cpp:221, 222 and 244), with a flag saying which of the two
    vectors is read. *)
Definition xo (oob : option (bool -> Z -> Z)) : option (Z -> Z) := option_map (fun f => f false) oob.
Definition yo (oob : option (bool -> Z -> Z)) : option (Z -> Z) := option_map (fun f => f true) oob.
Fixpoint GenerateEditList (fuel : nat) (asserts : bool) (oob : option (bool -> Z -> Z)) (n : Z) (xv yv : list Z)
    (xb xe yb ye : Z) (D : arr) : res (list edit * arr) :=
  match fuel with
  | O => Hang
  | S f =>
      _ <-- (if asserts then
               _ <-- assert_ (negb (xe - xb =? 0) || negb (ye - yb =? 0)) ;;
               a <-- vread (xo oob) xv xb ;; b <-- vread (yo oob) yv yb ;;
               _ <-- assert_ (negb (a =? b) || (xe - xb =? 0) || (ye - yb =? 0)) ;;
               a <-- vread (xo oob) xv (xe - 1) ;; b <-- vread (yo oob) yv (ye - 1) ;;
               assert_ (negb (a =? b) || (xe - xb =? 0) || (ye - yb =? 0))
             else Ok tt) ;;
      if xe - xb =? 0 then Ok ([mkedit xb yb (ye - yb) 0], D)
      else if ye - yb =? 0 then Ok ([mkedit xb yb 0 (xe - xb)], D)
      else if (0 <? xe - xb) && (0 <? ye - yb) then
        ' (p, D) <-- FindEditMidPoint n xv yv xb xe yb ye D ;;
        let '(xm, ym, len) := p in
        if 1 <? len then
          a <-- vread (xo oob) xv (xm - 1) ;; b <-- vread (yo oob) yv (ym - 1) ;;
          if (a =? b) && negb (xm =? xb) && negb (ym =? yb) then
            ' (l2, D) <-- GenerateEditList f asserts oob n xv yv xm xe ym ye D ;;
            ' (xm, ym) <-- eat_back (S (Z.to_nat (xm - xb))) xv yv xb yb xm ym ;;
            ' (l1, D) <-- GenerateEditList f asserts oob n xv yv xb xm yb ym D ;;
            l <-- merge_edits l1 l2 ;; Ok (l, D)
          else
            ' (l1, D) <-- GenerateEditList f asserts oob n xv yv xb xm yb ym D ;;
            ' (xm, ym) <-- eat_fwd (S (Z.to_nat (xe - xm))) xv yv xe ye xm ym ;;
            ' (l2, D) <-- GenerateEditList f asserts oob n xv yv xm xe ym ye D ;;
            l <-- merge_edits l1 l2 ;; Ok (l, D)
        else if len =? 0 then (if asserts then Abort else Ok ([], D))
        else
          a <-- vread (xo oob) xv xb ;; b <-- vread (yo oob) yv yb ;;
          if xe - xb <? ye - yb then
            Ok ([if a =? b then mkedit xe (ye - 1) 1 0 else mkedit xb yb 1 0], D)
          else
            Ok ([if a =? b then mkedit (xe - 1) yb 0 1 else mkedit xb yb 0 1], D)
      else Ok ([], D)
  end.

(** ** BuildLines, tfDiff.cpp:360-454 *)

(** [hash_type] is [size_t], 64 bits; tfDiff.cpp:15, 66-71: [RotateLeft]. *)
Definition u64 (z : Z) : Z := z mod 18446744073709551616.
Definition rotl (v n : Z) : Z := Z.lor (u64 (Z.shiftl v n)) (Z.shiftr v (64 - n)).
(** tfDiff.cpp:73-76; [char] is converted to [size_t] by sign extension when
    it is signed ([sc]). *)
Definition char_val (sc : bool) (c : ascii) : Z :=
  let z := Z.of_nat (code c) in if sc && (128 <=? z) then z - 256 else z.
Definition hash1 (sc : bool) (h : Z) (c : ascii) : Z := u64 (char_val sc c + rotl h 7).
(** tfDiff.cpp:78-84 *)
Definition hashString (sc : bool) (s : str) : Z := fold_left (hash1 sc) s 0.

(** tfDiff.cpp:364-405: counting the lines and indexing them; the model
    produces the pieces [substr(lindex, length)] themselves.  [cur] is the
    current line, reversed. *)
Fixpoint build_lines (s : str) (cur : str) : list str :=
  match s with
  | [] => [rev cur]
  | c :: r => if eqc c nl then rev cur :: build_lines r [] else build_lines r (c :: cur)
  end.

(** std::multimap<hash_type, size_t>, tfDiff.cpp:409-418: a list sorted by
    key; [insert] puts a new pair after the pairs of an equal key. *)
Definition table := list (Z * nat).
Fixpoint tinsert (h : Z) (i : nat) (t : table) : table :=
  match t with
  | [] => [(h, i)]
  | (h', i') :: r => if h <? h' then (h, i) :: t else (h', i') :: tinsert h i r
  end.
Definition build_table (sc : bool) (ls : list str) : table :=
  fold_left (fun t p => tinsert (hashString sc (snd p)) (fst p) t) (combine (seq 0 (length ls)) ls) [].

(** tfDiff.cpp:439-449: one pass over the run of key [h] at the front of a
    table.  [passed] are the entries already stepped over; dereferencing
    end() while entries are left in the table is undefined behaviour.
    Returns the remaining table and the indices that get the id. *)
Fixpoint scan (ls : list str) (h : Z) (w : str) (passed t : table) (ids : list nat) : res (table * list nat) :=
  match t with
  | [] => match passed with [] => Ok ([], ids) | _ => UB end
  | (h', i) :: r =>
      if h' =? h then
        if eqs w (nth i ls []) then scan ls h w passed r (i :: ids)
        else scan ls h w (passed ++ [(h', i)]) r ids
      else Ok (passed ++ t, ids)
  end.

Definition assign (id : Z) (is : list nat) (v : list Z) : list Z :=
  fold_left (fun v i => match set_at i id v with Some v' => v' | None => v end) is v.

(** tfDiff.cpp:423-452: the loop giving out the ids. *)
Fixpoint id_loop (fuel : nat) (l0 l1 : list str) (t0 t1 : table) (id : Z) (v0 v1 : list Z)
  : res (list Z * list Z) :=
  match fuel with
  | O => Hang
  | S f =>
      match t0, t1 with
      | [], [] => Ok (v0, v1)
      | [], (h, i) :: _ =>
          ' (t1', a1) <-- scan l1 h (nth i l1 []) [] t1 [] ;;
          id_loop f l0 l1 [] t1' (id + 1) v0 (assign id a1 v1)
      | (h, i) :: _, _ =>
          let one := match t1 with (h1, _) :: _ => h1 <? h | [] => false end in
          if one then
            match t1 with
            | (h1, i1) :: _ =>
                ' (t1', a1) <-- scan l1 h1 (nth i1 l1 []) [] t1 [] ;;
                id_loop f l0 l1 t0 t1' (id + 1) v0 (assign id a1 v1)
            | [] => UB
            end
          else
            ' (t0', a0) <-- scan l0 h (nth i l0 []) [] t0 [] ;;
            ' (t1', a1) <-- scan l1 h (nth i l0 []) [] t1 [] ;;
            id_loop f l0 l1 t0' t1' (id + 1) (assign id a0 v0) (assign id a1 v1)
      end
  end.

(** [new id_type[n]], tfDiff.cpp:384-385, leaves the elements indeterminate;
    the model starts from 0, and the first id is
    numeric_limits<size_t>::min() + 1 = 1 (tfDiff.cpp:423). *)
Definition BuildLines (sc : bool) (s0 s1 : str) : res (list str * list str * list Z * list Z) :=
  let l0 := build_lines s0 [] in
  let l1 := build_lines s1 [] in
  ' (v0, v1) <-- id_loop (S (length l0 + length l1)) l0 l1 (build_table sc l0) (build_table sc l1) 1
                   (repeat 0 (length l0)) (repeat 0 (length l1)) ;;
  Ok (l0, l1, v0, v1).

(** ** Printing *)

(** tfDiff.cpp:301-307: [prefix.c_str()], then the line up to its first NUL. *)
Definition PrintLines (prefix : str) (ls : list str) (lnum num : Z) : str :=
  flat_map (fun i => prefix ++ cstr (nth (Z.to_nat lnum + i)%nat ls []) ++ [nl]) (seq 0 (Z.to_nat num)).

(** tfDiff.cpp:317-320 etc.: a range of lines. *)
Definition range_ (start count : Z) : str :=
  if 1 <? count then print_int (start + 1) ++ $"," ++ print_int (start + count)
  else print_int (start + 1).

(** tfDiff.cpp:310-356, one edit. *)
Definition PrintEdit (l0 l1 : list str) (e : edit) : str :=
  if negb (inserted e =? 0) && negb (deleted e =? 0) then
    range_ (line0 e) (deleted e) ++ $"c" ++ range_ (line1 e) (inserted e) ++ [nl] ++
    PrintLines $"< " l0 (line0 e) (deleted e) ++ $"----" ++ [nl] ++
    PrintLines $"> " l1 (line1 e) (inserted e)
  else if negb (inserted e =? 0) then
    print_int (line0 e) ++ $"a" ++ range_ (line1 e) (inserted e) ++ [nl] ++
    PrintLines $"> " l1 (line1 e) (inserted e)
  else
    range_ (line0 e) (deleted e) ++ $"d" ++ print_int (line1 e + 1) ++ [nl] ++
    PrintLines $"< " l0 (line0 e) (deleted e).

Definition PrintEditList (l0 l1 : list str) (es : list edit) : str := flat_map (PrintEdit l0 l1) es.

(** ** Diff, tfDiff.cpp:459-500 *)

(** tfDiff.cpp:462-492, without the printing: the two line sequences and the edit list. *)
Definition edits_of (asserts : bool) (oob : option (bool -> Z -> Z)) (v0 v1 : list Z) : res (list edit) :=
  let n0 := Z.of_nat (length v0) in
  let n1 := Z.of_nat (length v1) in
  let n := (n0 + n1) * 2 + 6 in
  ' (xb, yb) <-- eat_fwd (S (length v0)) v0 v1 n0 n1 0 0 ;;
  ' (xe, ye) <-- eat_back (S (length v0)) v0 v1 xb yb n0 n1 ;;
  if negb (xb =? xe) || negb (yb =? ye) then
    ' (l, _) <-- GenerateEditList (S (Z.to_nat ((xe - xb) + (ye - yb)))) asserts oob n v0 v1 xb xe yb ye (fun _ => None) ;;
    Ok l
  else Ok [].

Definition Diff (sc asserts : bool) (oob : option (bool -> Z -> Z)) (s0 s1 : str) : res str :=
  ' (l0, l1, v0, v1) <-- BuildLines sc s0 s1 ;;
  l <-- edits_of asserts oob v0 v1 ;;
  Ok (PrintEditList l0 l1 l).

Example diff_ex : Diff true true (Some (fun _ _ => 0)) $"a
b
c" $"a
x
c
d" = Ok $"2c2
< b
----
> x
3a4
> d
".
Proof. vm_compute. reflexivity. Qed.
