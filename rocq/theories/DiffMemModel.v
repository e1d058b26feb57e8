(** Model of the memory of the line difference, /repo/TestingFramework/tfDiff.cpp.

    DiffModel.v computes on lists; here the same code runs on a heap: the two
    arrays of line indices, the two arrays of line identifiers and the buffer
    of diagonals are the five blocks the code gets from [new[]], every
    element is indeterminate until it is written, every access names a block
    and an index, and the blocks are given back by [delete[]].

    What is not in the heap: the multimaps, the list of edits and the
    strings, which are containers of the standard library and values here.
    Loops carry the same fuel as in DiffModel.v. *)
From Verif Require Import Base Str Dec DiffModel.
Local Open Scope Z_scope.

(** ** The heap *)

(** A block: its number of elements and their contents ([arr] of DiffModel.v:
    [None] is an element never written).  Block names are given out in order
    and never used again; [h_next] is the number of requests so far. *)
Record heap : Type := mkheap { h_next : nat; h_blk : nat -> option (Z * arr) }.

Definition MH (A : Type) : Type := heap -> heap * res A.
Definition hret {A} (a : A) : MH A := fun h => (h, Ok a).
Definition hfail {A} (r : res A) : MH A := fun h => (h, r).
Definition hbind {A B} (m : MH A) (k : A -> MH B) : MH B := fun h =>
  match m h with
  | (h', Ok a) => k a h'
  | (h', Throw e) => (h', Throw e)
  | (h', UB) => (h', UB)
  | (h', Abort) => (h', Abort)
  | (h', Hang) => (h', Hang)
  end.
Notation "x <~ m ;; k" := (hbind m (fun x => k)) (at level 61, m at next level, right associativity).
Notation "' p <~ m ;; k" := (hbind m (fun p => k)) (at level 61, p pattern, m at next level, right associativity).

Definition set_blk (p : nat) (b : option (Z * arr)) (h : heap) : heap :=
  mkheap (h_next h) (fun q => if Nat.eqb q p then b else h_blk h q).

(** [new T[n]]: request number [k] fails, throwing [std::bad_alloc], when
    [full k]; otherwise a block of [n] indeterminate elements. *)
Definition hnew (full : nat -> bool) (n : Z) : MH nat := fun h =>
  let p := h_next h in
  let h := mkheap (S p) (h_blk h) in
  if full p then (h, Throw ExnRuntime) else (set_blk p (Some (n, fun _ => None)) h, Ok p).
(** [delete[] p]: undefined for what is not a live block. *)
Definition hdelete (p : nat) : MH unit := fun h =>
  match h_blk h p with Some _ => (set_blk p None h, Ok tt) | None => (h, UB) end.
(** [p[i]] as a value: undefined in a dead block, outside the block and for
    an element never written. *)
Definition hread (p : nat) (i : Z) : MH Z := fun h =>
  match h_blk h p with Some (n, A) => (h, rda n A i) | None => (h, UB) end.
(** [p[i]] where the code reads before testing the range: [oob] as for
    [vread] of DiffModel.v. *)
Definition hread_out (oob : option (Z -> Z)) (p : nat) (i : Z) : MH Z := fun h =>
  match h_blk h p with
  | Some (n, A) =>
      if (0 <=? i) && (i <? n) then (h, rda n A i)
      else match oob with None => (h, UB) | Some f => (h, Ok (f i)) end
  | None => (h, UB)
  end.
(** [p[i] = v] *)
Definition hwrite (p : nat) (i v : Z) : MH unit := fun h =>
  match h_blk h p with
  | Some (n, A) => match wra n A i v with Ok A' => (set_blk p (Some (n, A')) h, Ok tt) | _ => (h, UB) end
  | None => (h, UB)
  end.

(** struct fumoffu, tfDiff.cpp:53-61; [false] is index 0 and [true] index 1.
    An array of [struct line] (tfDiff.cpp:47-50) is a block of twice as many
    words: [lindex] of line i is word 2i and [length] is word 2i+1. *)
Record fumoffu : Type := mkfum {
  d_str : bool -> str; d_nlines : bool -> Z; d_lines : bool -> nat; d_vec : bool -> nat; d_diag : nat }.
Definition two {A} (a b : A) : bool -> A := fun j => if j then b else a.

(** ** BuildLines, tfDiff.cpp:360-454 *)

(** tfDiff.cpp:365-372: one more than the number of new-lines. *)
Fixpoint count_lines (s : str) (n : Z) : Z :=
  match s with [] => n | c :: r => count_lines r (if eqc c nl then n + 1 else n) end.

(** tfDiff.cpp:384-398, for one of the two strings: [s] is what is left of it
    from position [i] on; [total] is its length. *)
Fixpoint index_lines (p : nat) (total : Z) (s : str) (i lindex lnum : Z) : MH unit :=
  match s with
  | [] => _ <~ hwrite p (2 * lnum) lindex ;; hwrite p (2 * lnum + 1) (total - lindex)
  | c :: r =>
      if eqc c nl then
        _ <~ hwrite p (2 * lnum) lindex ;;
        _ <~ hwrite p (2 * lnum + 1) (i - lindex) ;;
        index_lines p total r (i + 1) (i + 1) (lnum + 1)
      else index_lines p total r (i + 1) lindex lnum
  end.

(** [str[j]->substr(data.lines[j][i].lindex, data.lines[j][i].length)],
    tfDiff.cpp:406, 442-443, 304-305: std::out_of_range beyond the end. *)
Definition line_at (d : fumoffu) (j : bool) (i : Z) : MH str :=
  a <~ hread (d_lines d j) (2 * i) ;;
  n <~ hread (d_lines d j) (2 * i + 1) ;;
  if a <=? Z.of_nat (length (d_str d j)) then hret (substr (d_str d j) (Z.to_nat a) (Z.to_nat n))
  else hfail (Throw ExnRuntime).

(** tfDiff.cpp:405-411: the hash table of one of the strings. *)
Fixpoint hash_lines (sc : bool) (d : fumoffu) (j : bool) (is : list nat) (t : table) : MH table :=
  match is with
  | [] => hret t
  | i :: r => w <~ line_at d j (Z.of_nat i) ;; hash_lines sc d j r (tinsert (hashString sc w) i t)
  end.

(** tfDiff.cpp:439-449: [v] is (h, second) of table [hindex]; [passed] as in
    DiffModel.v.  The identifier is written to the vector at once. *)
Fixpoint m_scan (d : fumoffu) (hindex : bool) (second : nat) (j : bool) (h id : Z) (passed t : table) : MH table :=
  match t with
  | [] => match passed with [] => hret [] | _ => hfail UB end
  | (h', i) :: r =>
      if h' =? h then
        w <~ line_at d hindex (Z.of_nat second) ;;
        w' <~ line_at d j (Z.of_nat i) ;;
        if eqs w w' then
          _ <~ hwrite (d_vec d j) (Z.of_nat i) id ;; m_scan d hindex second j h id passed r
        else m_scan d hindex second j h id (passed ++ [(h', i)]) r
      else hret (passed ++ t)
  end.

(** tfDiff.cpp:416-452. *)
Fixpoint m_id_loop (fuel : nat) (d : fumoffu) (t0 t1 : table) (id : Z) : MH unit :=
  match fuel with
  | O => hfail Hang
  | S f =>
      match t0, t1 with
      | [], [] => hret tt
      | [], (h, i) :: _ =>
          t1 <~ m_scan d true i true h id [] t1 ;; m_id_loop f d [] t1 (id + 1)
      | (h, i) :: _, [] =>
          t0 <~ m_scan d false i false h id [] t0 ;;
          t1 <~ m_scan d false i true h id [] t1 ;; m_id_loop f d t0 t1 (id + 1)
      | (h, i) :: _, (h1, i1) :: _ =>
          if h1 <? h then
            t1 <~ m_scan d true i1 true h1 id [] t1 ;; m_id_loop f d t0 t1 (id + 1)
          else
            t0 <~ m_scan d false i false h id [] t0 ;;
            t1 <~ m_scan d false i true h id [] t1 ;; m_id_loop f d t0 t1 (id + 1)
      end
  end.

(** tfDiff.cpp:360-454; [diagonals] is not set yet (any name will do: 0). *)
Definition m_BuildLines (full : nat -> bool) (sc : bool) (s0 s1 : str) : MH fumoffu :=
  let n0 := count_lines s0 1 in
  let n1 := count_lines s1 1 in
  pl0 <~ hnew full (2 * n0) ;;
  pl1 <~ hnew full (2 * n1) ;;
  pv0 <~ hnew full n0 ;;
  pv1 <~ hnew full n1 ;;
  _ <~ index_lines pl0 (Z.of_nat (length s0)) s0 0 0 0 ;;
  _ <~ index_lines pl1 (Z.of_nat (length s1)) s1 0 0 0 ;;
  let d := mkfum (two s0 s1) (two n0 n1) (two pl0 pl1) (two pv0 pv1) 0 in
  t0 <~ hash_lines sc d false (seq 0 (Z.to_nat n0)) [] ;;
  t1 <~ hash_lines sc d true (seq 0 (Z.to_nat n1)) [] ;;
  _ <~ m_id_loop (S (Z.to_nat n0 + Z.to_nat n1)) d t0 t1 1 ;;
  hret d.

(** ** FindEditMidPoint, tfDiff.cpp:95-204 *)

(** tfDiff.cpp:148-149 *)
Fixpoint m_fsnake (fuel : nat) (d : fumoffu) (xe ye x y : Z) : MH (Z * Z) :=
  match fuel with
  | O => hfail Hang
  | S f =>
      if (x <? xe) && (y <? ye) then
        a <~ hread (d_vec d false) x ;; b <~ hread (d_vec d true) y ;;
        if a =? b then m_fsnake f d xe ye (x + 1) (y + 1) else hret (x, y)
      else hret (x, y)
  end.

(** tfDiff.cpp:181-182 *)
Fixpoint m_bsnake (fuel : nat) (d : fumoffu) (xb yb x y : Z) : MH (Z * Z) :=
  match fuel with
  | O => hfail Hang
  | S f =>
      if (xb <? x) && (yb <? y) then
        a <~ hread (d_vec d false) (x - 1) ;; b <~ hread (d_vec d true) (y - 1) ;;
        if a =? b then m_bsnake f d xb yb (x - 1) (y - 1) else hret (x, y)
      else hret (x, y)
  end.

(** tfDiff.cpp:138-161; [fo], [bo] as in DiffModel.v. *)
Fixpoint m_floop (fuel : nat) (d : fumoffu) (fo bo xe ye : Z) (odd : bool) (fmin bmin bmax len k : Z)
    : MH (option partition) :=
  match fuel with
  | O => hfail Hang
  | S f =>
      if k <? fmin then hret None else
      lo <~ hread (d_diag d) (fo + (k - 1)) ;; hi <~ hread (d_diag d) (fo + (k + 1)) ;;
      let x := if lo <? hi then hi else lo + 1 in
      ' (x, y) <~ m_fsnake (S (Z.to_nat (xe - x))) d xe ye x (x - k) ;;
      _ <~ hwrite (d_diag d) (fo + k) x ;;
      if odd && (bmin <=? k) && (k <=? bmax) then
        b <~ hread (d_diag d) (bo + k) ;;
        if b <=? x then hret (Some (x, y, u32 (2 * len - 1)))
        else m_floop f d fo bo xe ye odd fmin bmin bmax len (k - 2)
      else m_floop f d fo bo xe ye odd fmin bmin bmax len (k - 2)
  end.

(** tfDiff.cpp:171-194 *)
Fixpoint m_bloop (fuel : nat) (d : fumoffu) (fo bo xb yb : Z) (odd : bool) (bmin fmin fmax len k : Z)
    : MH (option partition) :=
  match fuel with
  | O => hfail Hang
  | S f =>
      if k <? bmin then hret None else
      lo <~ hread (d_diag d) (bo + (k - 1)) ;; hi <~ hread (d_diag d) (bo + (k + 1)) ;;
      let x := if hi <=? lo then hi - 1 else lo in
      ' (x, y) <~ m_bsnake (S (Z.to_nat (x - xb))) d xb yb x (x - k) ;;
      _ <~ hwrite (d_diag d) (bo + k) x ;;
      if negb odd && (fmin <=? k) && (k <=? fmax) then
        v <~ hread (d_diag d) (fo + k) ;;
        if x <=? v then hret (Some (x, y, u32 (2 * len)))
        else m_bloop f d fo bo xb yb odd bmin fmin fmax len (k - 2)
      else m_bloop f d fo bo xb yb odd bmin fmin fmax len (k - 2)
  end.

(** [if (c) p[i] = v;] *)
Definition hwrite_if (c : bool) (p : nat) (i v : Z) : MH unit := if c then hwrite p i v else hret tt.

(** tfDiff.cpp:129-202 *)
Fixpoint m_mloop (fuel : nat) (d : fumoffu) (fo bo xb xe yb ye dmin dmax : Z) (odd : bool)
    (len fmin fmax bmin bmax : Z) : MH partition :=
  match fuel with
  | O => hfail Hang
  | S f =>
      _ <~ hwrite_if (dmin <=? fmin) (d_diag d) (fo + (fmin - 1)) (xb - 1) ;;
      _ <~ hwrite_if (fmax <=? dmax) (d_diag d) (fo + (fmax + 1)) (xb - 1) ;;
      p <~ m_floop (S (Z.to_nat (fmax - fmin + 1))) d fo bo xe ye odd fmin bmin bmax len fmax ;;
      match p with
      | Some p => hret p
      | None =>
          let fmin := if dmin <? fmin then fmin - 1 else fmin in
          let fmax := if fmax <? dmax then fmax + 1 else fmax in
          _ <~ hwrite_if (dmin <=? bmin) (d_diag d) (bo + (bmin - 1)) (xe + 1) ;;
          _ <~ hwrite_if (bmax <=? dmax) (d_diag d) (bo + (bmax + 1)) (xe + 1) ;;
          p <~ m_bloop (S (Z.to_nat (bmax - bmin + 1))) d fo bo xb yb odd bmin fmin fmax len bmax ;;
          match p with
          | Some p => hret p
          | None =>
              let fmin := if fmin <? dmin then fmin + 2 else fmin in
              let fmax := if dmax <? fmax then fmax - 2 else fmax in
              let bmin := if dmin <? bmin then bmin - 1 else bmin + 1 in
              let bmax := if bmax <? dmax then bmax + 1 else bmax - 1 in
              m_mloop f d fo bo xb xe yb ye dmin dmax odd (len + 1) fmin fmax bmin bmax
          end
      end
  end.

(** tfDiff.cpp:95-126 *)
Definition m_FindEditMidPoint (d : fumoffu) (xb xe yb ye : Z) : MH partition :=
  let dmin := xb - ye in
  let dmax := xe - yb in
  let fmid := xb - yb in
  let bmid := xe - ye in
  let odd := Z.odd (fmid - bmid) in
  let fo := - dmin + 1 in
  let bo := (dmax - dmin + 3) - dmin + 1 in
  _ <~ hwrite (d_diag d) (fo + fmid) xb ;;
  _ <~ hwrite (d_diag d) (bo + bmid) xe ;;
  m_mloop (Z.to_nat ((xe - xb) + (ye - yb) + 3)) d fo bo xb xe yb ye dmin dmax odd 0 fmid fmid bmid bmid.

(** ** GenerateEditList, tfDiff.cpp:208-299 *)

(** tfDiff.cpp:247-248, 484-485 *)
Fixpoint m_eat_back (fuel : nat) (d : fumoffu) (xb yb x y : Z) : MH (Z * Z) :=
  match fuel with
  | O => hfail Hang
  | S f =>
      if negb (x =? xb) && negb (y =? yb) then
        a <~ hread (d_vec d false) (x - 1) ;; b <~ hread (d_vec d true) (y - 1) ;;
        if a =? b then m_eat_back f d xb yb (x - 1) (y - 1) else hret (x, y)
      else hret (x, y)
  end.

(** tfDiff.cpp:253-254, 482-483 *)
Fixpoint m_eat_fwd (fuel : nat) (d : fumoffu) (xe ye x y : Z) : MH (Z * Z) :=
  match fuel with
  | O => hfail Hang
  | S f =>
      if negb (x =? xe) && negb (y =? ye) then
        a <~ hread (d_vec d false) x ;; b <~ hread (d_vec d true) y ;;
        if a =? b then m_eat_fwd f d xe ye (x + 1) (y + 1) else hret (x, y)
      else hret (x, y)
  end.

(** tfDiff.cpp:217-222: the assertions on entry. *)
Definition m_asserts (d : fumoffu) (oob : option (bool -> Z -> Z)) (xb xe yb ye : Z) : MH unit :=
  _ <~ hfail (assert_ (negb (xe - xb =? 0) || negb (ye - yb =? 0))) ;;
  a <~ hread_out (xo oob) (d_vec d false) xb ;; b <~ hread_out (yo oob) (d_vec d true) yb ;;
  _ <~ hfail (assert_ (negb (a =? b) || (xe - xb =? 0) || (ye - yb =? 0))) ;;
  a <~ hread_out (xo oob) (d_vec d false) (xe - 1) ;; b <~ hread_out (yo oob) (d_vec d true) (ye - 1) ;;
  hfail (assert_ (negb (a =? b) || (xe - xb =? 0) || (ye - yb =? 0))).

(** tfDiff.cpp:208-299 *)
Fixpoint m_GenerateEditList (fuel : nat) (asserts : bool) (oob : option (bool -> Z -> Z)) (d : fumoffu)
    (xb xe yb ye : Z) : MH (list edit) :=
  match fuel with
  | O => hfail Hang
  | S f =>
      _ <~ (if asserts then m_asserts d oob xb xe yb ye else hret tt) ;;
      if xe - xb =? 0 then hret [mkedit xb yb (ye - yb) 0]
      else if ye - yb =? 0 then hret [mkedit xb yb 0 (xe - xb)]
      else if (0 <? xe - xb) && (0 <? ye - yb) then
        p <~ m_FindEditMidPoint d xb xe yb ye ;;
        let '(xm, ym, len) := p in
        if 1 <? len then
          a <~ hread_out (xo oob) (d_vec d false) (xm - 1) ;; b <~ hread_out (yo oob) (d_vec d true) (ym - 1) ;;
          if (a =? b) && negb (xm =? xb) && negb (ym =? yb) then
            l2 <~ m_GenerateEditList f asserts oob d xm xe ym ye ;;
            ' (xm, ym) <~ m_eat_back (S (Z.to_nat (xm - xb))) d xb yb xm ym ;;
            l1 <~ m_GenerateEditList f asserts oob d xb xm yb ym ;;
            hfail (merge_edits l1 l2)
          else
            l1 <~ m_GenerateEditList f asserts oob d xb xm yb ym ;;
            ' (xm, ym) <~ m_eat_fwd (S (Z.to_nat (xe - xm))) d xe ye xm ym ;;
            l2 <~ m_GenerateEditList f asserts oob d xm xe ym ye ;;
            hfail (merge_edits l1 l2)
        else if len =? 0 then (if asserts then hfail Abort else hret [])
        else
          a <~ hread_out (xo oob) (d_vec d false) xb ;; b <~ hread_out (yo oob) (d_vec d true) yb ;;
          if xe - xb <? ye - yb then
            hret [if a =? b then mkedit xe (ye - 1) 1 0 else mkedit xb yb 1 0]
          else
            hret [if a =? b then mkedit (xe - 1) yb 0 1 else mkedit xb yb 0 1]
      else hret []
  end.

(** ** Printing *)

(** tfDiff.cpp:301-307: the counter is a size_t, so a negative count would
    be a huge one ([u64]). *)
Fixpoint m_print_lines (num : nat) (d : fumoffu) (prefix : str) (source : bool) (lnum : Z) : MH str :=
  match num with
  | O => hret []
  | S r =>
      w <~ line_at d source lnum ;;
      rest <~ m_print_lines r d prefix source (lnum + 1) ;;
      hret (prefix ++ cstr w ++ [nl] ++ rest)
  end.
Definition m_PrintLines (d : fumoffu) (prefix : str) (source : bool) (lnum num : Z) : MH str :=
  m_print_lines (Z.to_nat (u64 num)) d prefix source lnum.

(** tfDiff.cpp:310-356, one edit. *)
Definition m_PrintEdit (d : fumoffu) (e : edit) : MH str :=
  if negb (inserted e =? 0) && negb (deleted e =? 0) then
    a <~ m_PrintLines d $"< " false (line0 e) (deleted e) ;;
    b <~ m_PrintLines d $"> " true (line1 e) (inserted e) ;;
    hret (range_ (line0 e) (deleted e) ++ $"c" ++ range_ (line1 e) (inserted e) ++ [nl] ++
          a ++ $"----" ++ [nl] ++ b)
  else if negb (inserted e =? 0) then
    b <~ m_PrintLines d $"> " true (line1 e) (inserted e) ;;
    hret (print_int (line0 e) ++ $"a" ++ range_ (line1 e) (inserted e) ++ [nl] ++ b)
  else
    a <~ m_PrintLines d $"< " false (line0 e) (deleted e) ;;
    hret (range_ (line0 e) (deleted e) ++ $"d" ++ print_int (line1 e + 1) ++ [nl] ++ a).

(** tfDiff.cpp:310-356 *)
Fixpoint m_PrintEditList (d : fumoffu) (es : list edit) : MH str :=
  match es with
  | [] => hret []
  | e :: r => a <~ m_PrintEdit d e ;; b <~ m_PrintEditList d r ;; hret (a ++ b)
  end.

(** ** Diff, tfDiff.cpp:459-508 *)

(** tfDiff.cpp:473-492 *)
Definition m_edits (asserts : bool) (oob : option (bool -> Z -> Z)) (d : fumoffu) : MH (list edit) :=
  let n0 := d_nlines d false in
  let n1 := d_nlines d true in
  ' (xb, yb) <~ m_eat_fwd (S (Z.to_nat n0)) d n0 n1 0 0 ;;
  ' (xe, ye) <~ m_eat_back (S (Z.to_nat n0)) d xb yb n0 n1 ;;
  if negb (xb =? xe) || negb (yb =? ye) then
    m_GenerateEditList (S (Z.to_nat ((xe - xb) + (ye - yb)))) asserts oob d xb xe yb ye
  else hret [].

(** tfDiff.cpp:459-508; the text written to [os] is the result.  (What was
    written before an exception or undefined behaviour is not kept.) *)
Definition m_Diff (full : nat -> bool) (sc asserts : bool) (oob : option (bool -> Z -> Z)) (s0 s1 : str) : MH str :=
  d <~ m_BuildLines full sc s0 s1 ;;
  pd <~ hnew full ((d_nlines d false + d_nlines d true) * 2 + 6) ;;
  let d := mkfum (d_str d) (d_nlines d) (d_lines d) (d_vec d) pd in
  l <~ m_edits asserts oob d ;;
  out <~ m_PrintEditList d l ;;
  _ <~ hdelete (d_diag d) ;;
  _ <~ hdelete (d_lines d false) ;;
  _ <~ hdelete (d_lines d true) ;;
  _ <~ hdelete (d_vec d false) ;;
  _ <~ hdelete (d_vec d true) ;;
  hret out.

Definition empty_heap : heap := mkheap 0 (fun _ => None).
Example m_diff_ex : snd (m_Diff (fun _ => false) true true (Some (fun _ _ => 0)) $"a
b
c" $"a
x
c
d" empty_heap) = Ok $"2c2
< b
----
> x
3a4
> d
".
Proof. vm_compute. reflexivity. Qed.
