(** Model of TestingFramework/tfBase64.cpp.
    Simplifications common to the file: [size_t] is unbounded ([nat]); a buffer whose size
    is within 2 of 2^64 cannot exist.  Plain [char] is signed when [sc = true] (the usual x86 ABI),
    unsigned otherwise. *)
From Verif Require Import Base.

(** tfBase64.h private members [addNewLines], [ignoreInvalids]; constructor tfBase64.cpp 46-48. *)
Record opts := Opts { addNewLines : bool; ignoreInvalids : bool }.
Definition default_opts : opts := Opts true false.

(** tfBase64.cpp 262-271 *)
Definition base64chars : list ascii :=
  [ "A";"B";"C";"D";"E";"F";"G";"H";
    "I";"J";"K";"L";"M";"N";"O";"P";
    "Q";"R";"S";"T";"U";"V";"W";"X";
    "Y";"Z";"a";"b";"c";"d";"e";"f";
    "g";"h";"i";"j";"k";"l";"m";"n";
    "o";"p";"q";"r";"s";"t";"u";"v";
    "w";"x";"y";"z";"0";"1";"2";"3";
    "4";"5";"6";"7";"8";"9";"+";"/" ]%char.

(** tfBase64.cpp 275-292 *)
Definition base64bits : list nat :=
  [ 255;255;255;255;255;255;255;255;254;254;254;254;254;254;255;255;
    255;255;255;255;255;255;255;255;255;255;255;255;255;255;255;255;
    255;255;255;255;255;255;255;255;255;255;255; 62;255;255;255; 63;
     52; 53; 54; 55; 56; 57; 58; 59; 60; 61;255;255;255; 64;255;255;
    255;  0;  1;  2;  3;  4;  5;  6;  7;  8;  9; 10; 11; 12; 13; 14;
     15; 16; 17; 18; 19; 20; 21; 22; 23; 24; 25;255;255;255;255;255;
    255; 26; 27; 28; 29; 30; 31; 32; 33; 34; 35; 36; 37; 38; 39; 40;
     41; 42; 43; 44; 45; 46; 47; 48; 49; 50; 51;255;255;255;255;255;
    255;255;255;255;255;255;255;255;255;255;255;255;255;255;255;255;
    255;255;255;255;255;255;255;255;255;255;255;255;255;255;255;255;
    255;255;255;255;255;255;255;255;255;255;255;255;255;255;255;255;
    255;255;255;255;255;255;255;255;255;255;255;255;255;255;255;255;
    255;255;255;255;255;255;255;255;255;255;255;255;255;255;255;255;
    255;255;255;255;255;255;255;255;255;255;255;255;255;255;255;255;
    255;255;255;255;255;255;255;255;255;255;255;255;255;255;255;255;
    255;255;255;255;255;255;255;255;255;255;255;255;255;255;255;255 ].

(** tfBase64.h enum values used by the decoder. *)
Definition PaddingBits := 64.
Definition WhiteSpaceBits := 254.
Definition InvalidBase64Bits := 255.

(** [base64chars[n]] *)
Definition sym (n : nat) : res ascii := rd n base64chars.

(** [base64bits[ptrdiff_t(byte)]]: a negative index is out of range. *)
Definition bits_of (sc : bool) (c : ascii) : res nat :=
  if sc && (128 <=? code c) then UB else rd (code c) base64bits.

(** The six index expressions of tfBase64.cpp 103-106, 117-119, 122-123
    on [unsigned char] operands promoted to [int]. *)
Definition un (c : ascii) : N := N_of_ascii c.
Definition e1 (a : ascii) : nat := N.to_nat (N.shiftr (un a) 2).
Definition e2 (a b : ascii) : nat := N.to_nat (N.lor (N.land (N.shiftl (un a) 4) 48) (N.shiftr (un b) 4)).
Definition e3 (b c : ascii) : nat := N.to_nat (N.lor (N.land (N.shiftl (un b) 2) 60) (N.shiftr (un c) 6)).
Definition e4 (c : ascii) : nat := N.to_nat (N.land (un c) 63).
Definition e2' (a : ascii) : nat := N.to_nat (N.land (N.shiftl (un a) 4) 48).
Definition e3' (b : ascii) : nat := N.to_nat (N.land (N.shiftl (un b) 2) 60).

(** Loop of tfBase64.cpp 102-113.  State: output string, [i], [j], [numBytes]. *)
Fixpoint encode_loop (fuel : nat) (o : opts) (input : str) (out : str) (i j numBytes : nat)
  : res (str * nat * nat * nat) :=
  match fuel with
  | 0 => Hang
  | S fuel' =>
      if 3 <=? numBytes then
        a <-- rd j input ;;
        b <-- rd (j + 1) input ;;
        c <-- rd (j + 2) input ;;
        s1 <-- sym (e1 a) ;;
        out <-- wr i s1 out ;;
        s2 <-- sym (e2 a b) ;;
        out <-- wr (i + 1) s2 out ;;
        s3 <-- sym (e3 b c) ;;
        out <-- wr (i + 2) s3 out ;;
        s4 <-- sym (e4 c) ;;
        out <-- wr (i + 3) s4 out ;;
        let i := i + 4 in
        let j := j + 3 in
        if addNewLines o && (i mod 72 =? 0) then
          out <-- wr i nl out ;;
          encode_loop fuel' o input out (i + 1) j (numBytes - 3)
        else
          encode_loop fuel' o input out i j (numBytes - 3)
      else Ok (out, i, j, numBytes)
  end.

(** tfBase64.cpp 84-129 *)
Definition Encode (o : opts) (input : str) : res str :=
  let numBytes := length input in
  let numChars := ((numBytes + 2) / 3) * 4 in
  let numChars := if addNewLines o then numChars + numChars / 72 else numChars in
  let output := repeat nul numChars in
  ' (out, i, j, nb) <-- encode_loop (S numBytes) o input output 0 0 numBytes ;;
  if nb =? 2 then
    a <-- rd j input ;;
    b <-- rd (j + 1) input ;;
    s1 <-- sym (e1 a) ;;
    out <-- wr i s1 out ;;
    s2 <-- sym (e2 a b) ;;
    out <-- wr (i + 1) s2 out ;;
    s3 <-- sym (e3' b) ;;
    out <-- wr (i + 2) s3 out ;;
    wr (i + 3) "="%char out
  else if nb =? 1 then
    a <-- rd j input ;;
    s1 <-- sym (e1 a) ;;
    out <-- wr i s1 out ;;
    s2 <-- sym (e2' a) ;;
    out <-- wr (i + 1) s2 out ;;
    out <-- wr (i + 2) "="%char out ;;
    wr (i + 3) "="%char out
  else Ok out.

(** tfBase64.cpp 131-177.  State: [byteNumber], [bytesRead], [padded]; the string index [i]
    is replaced by the remaining suffix of the input. *)
Fixpoint isb64_loop (sc : bool) (o : opts) (input : str) (byteNumber bytesRead : nat) (padded : bool)
  : res nat :=
  match input with
  | [] => if negb (byteNumber =? 0) then Ok 0 else Ok bytesRead                 (* 173-176 *)
  | byte :: rest =>
      bits <-- bits_of sc byte ;;
      if bits <=? 64 then
        let continue (byteNumber bytesRead : nat) (padded : bool) :=                              (* 156-160 *)
          if byteNumber =? 4 then
            if padded then Ok bytesRead                     (* break with byteNumber = 0 *)
            else isb64_loop sc o rest 0 bytesRead padded
          else isb64_loop sc o rest byteNumber bytesRead padded in
        if bits =? PaddingBits then continue (byteNumber + 1) bytesRead true     (* 143-145 *)
        else if padded then Ok 0                                                 (* 146-148 *)
        else continue (byteNumber + 1) (bytesRead + 1) padded                    (* 149-154 *)
      else if bits =? WhiteSpaceBits then isb64_loop sc o rest byteNumber bytesRead padded
      else if bits =? InvalidBase64Bits then
        if negb (ignoreInvalids o) then Ok 0 else isb64_loop sc o rest byteNumber bytesRead padded
      else Ok 0
  end.
Definition IsBase64 (sc : bool) (o : opts) (input : str) : res nat := isb64_loop sc o input 0 0 false.

(** [output[j++] = e]: conversion to [unsigned char] keeps the value modulo 256. *)
Definition put (j : nat) (e : N) (out : list cell) : option (list cell) :=
  set_at j (Some (ascii_of_N (e mod 256))) out.

(** The byte expressions of tfBase64.cpp 201-206 and 232-234; operands are [char] in 0..63. *)
Definition d1 (v0 v1 : nat) : N := N.lor (N.shiftl (N.of_nat v0) 2) (N.shiftr (N.of_nat v1) 4).
Definition d2 (v1 v2 : nat) : N := N.lor (N.shiftl (N.of_nat v1) 4) (N.shiftr (N.of_nat v2) 2).
Definition d3 (v2 v3 : nat) : N := N.lor (N.shiftl (N.of_nat v2) 6) (N.of_nat v3).
Definition d2' (v1 : nat) : N := N.shiftl (N.of_nat v1) 4.
Definition d3' (v2 : nat) : N := N.shiftl (N.of_nat v2) 6.

(** tfBase64.cpp 179-257.  The output memory is threaded through and returned in every outcome, since
    an exception leaves the bytes already stored in place.  [buffer] holds the [byteNumber] symbols of
    the current group.  A write outside the memory is [UB]. *)
Fixpoint decode_loop (sc : bool) (o : opts) (input : str) (out : list cell) (j : nat)
         (byteNumber : nat) (buffer : list nat) (bytesRead : nat) (padded : bool)
  : list cell * res nat :=
  match input with
  | [] => (out, if negb (byteNumber =? 0) then Throw ExnRuntime else Ok bytesRead)   (* 252-256 *)
  | byte :: rest =>
      match bits_of sc byte with
      | Ok bits =>
        if bits <=? 64 then
          if bits =? PaddingBits then
            (* 196-215 *)
            let after (out : list cell) (j : nat) :=
              if byteNumber + 1 =? 4 then
                (* break, then 252: byteNumber = 4 <> 0 *)
                (out, Throw ExnRuntime)
              else decode_loop sc o rest out j (byteNumber + 1) buffer bytesRead true in
            if negb padded then
              match byteNumber, buffer with
              | 2, [v0; v1] =>
                  match put j (d1 v0 v1) out with
                  | None => (out, UB)
                  | Some out => match put (j + 1) (d2' v1) out with
                                | None => (out, UB)
                                | Some out => after out (j + 2)
                                end
                  end
              | 3, [v0; v1; v2] =>
                  match put j (d1 v0 v1) out with
                  | None => (out, UB)
                  | Some out =>
                    match put (j + 1) (d2 v1 v2) out with
                    | None => (out, UB)
                    | Some out => match put (j + 2) (d3' v2) out with
                                  | None => (out, UB)
                                  | Some out => after out (j + 3)
                                  end
                    end
                  end
              | _, _ => after out j      (* 208: the exception object is created but not thrown *)
              end
            else after out j
          else if padded then (out, Throw ExnRuntime)                                (* 217-219 *)
          else
            (* 220-237 *)
            if byteNumber + 1 =? 4 then
              match buffer with
              | [v0; v1; v2] =>
                  match put j (d1 v0 v1) out with
                  | None => (out, UB)
                  | Some out =>
                    match put (j + 1) (d2 v1 v2) out with
                    | None => (out, UB)
                    | Some out => match put (j + 2) (d3 v2 bits) out with
                                  | None => (out, UB)
                                  | Some out => decode_loop sc o rest out (j + 3) 0 [] (bytesRead + 1 - 1) padded
                                  end
                    end
                  end
              | _ => (out, UB)           (* reading an uninitialised buffer element *)
              end
            else decode_loop sc o rest out j (byteNumber + 1) (buffer ++ [bits]) (bytesRead + 1) padded
        else if bits =? WhiteSpaceBits then decode_loop sc o rest out j byteNumber buffer bytesRead padded
        else if bits =? InvalidBase64Bits then
          if negb (ignoreInvalids o) then (out, Throw ExnRuntime)
          else decode_loop sc o rest out j byteNumber buffer bytesRead padded
        else (out, Throw ExnRuntime)
      | _ => (out, UB)
      end
  end.
Definition Decode (sc : bool) (o : opts) (input : str) (out : list cell) : list cell * res nat :=
  decode_loop sc o input out 0 0 [] 0 false.
