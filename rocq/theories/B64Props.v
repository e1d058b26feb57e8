(** Properties C01-C09: base64.  Every theorem is closed by a lemma of B64Thm.v / B64Dec2.v;
    the vocabulary of the statements is in B64Spec.v (specification) and B64Model.v (code). *)
From Verif Require Import Base B64Spec B64Model B64Thm B64Dec2.

(** C01 *)
Theorem C01_encode_is_rfc4648 : forall o d, addNewLines o = false -> Encode o d = Ok (rfc4648 d).
Proof. exact plain_lemma. Qed.
Print Assumptions C01_encode_is_rfc4648.
Example C01_case : Encode (Opts false false) ($"light work") = Ok ($"bGlnaHQgd29yaw==").
Proof. vm_compute. reflexivity. Qed.

(** C02: one line break at most, after the 72nd symbol; left-over NUL characters. *)
Theorem C02_encode_layout : forall o d, addNewLines o = true ->
  exists k,
    Encode o d = Ok ((if 54 <=? length d
                      then firstn 72 (rfc4648 d) ++ [nl] ++ skipn 72 (rfc4648 d)
                      else rfc4648 d) ++ repeat nul k)
    /\ k + (if 54 <=? length d then 1 else 0) = length (rfc4648 d) / 72
    /\ (k = 0 <-> length d < 52 \/ 54 <= length d < 106).
Proof. exact layout_lemma. Qed.
Print Assumptions C02_encode_layout.

(** The header's claim that lines have at most 72 characters is false. *)
Theorem C02_line_length_refuted : exists d a b, Encode default_opts d = Ok (a ++ b) /\
  length b > 72 /\ existsb (eqc nl) b = false /\ existsb (eqc nul) b = true.
Proof.
  exists (bytes 120), (firstn 73 (match Encode default_opts (bytes 120) with Ok s => s | _ => [] end)),
         (skipn 73 (match Encode default_opts (bytes 120) with Ok s => s | _ => [] end)).
  split; [vm_compute; reflexivity|]. split; [apply Nat.ltb_lt; vm_compute; reflexivity|].
  split; vm_compute; reflexivity.
Qed.
Print Assumptions C02_line_length_refuted.

(** C03: all accesses in range (an access out of range is [UB] in the model), and exact result length. *)
Theorem C03_encode_memory_safe : forall o d, exists s, Encode o d = Ok s /\
  length s = (let c := (length d + 2) / 3 * 4 in c + (if addNewLines o then c / 72 else 0)).
Proof. exact safe_lemma. Qed.
Print Assumptions C03_encode_memory_safe.

(** C04 *)
Theorem C04_decode_encode : forall sc oe od d text buf,
  Encode oe d = Ok text -> length d < length buf ->
  (length d mod 3 = 0 /\ (addNewLines oe = false \/ ignoreInvalids od = true \/ length d < 108) ->
     Decode sc od text buf = (map Some d ++ skipn (length d) buf, Ok (length d))) /\
  (~ (length d mod 3 = 0 /\ (addNewLines oe = false \/ ignoreInvalids od = true \/ length d < 108)) ->
     snd (Decode sc od text buf) = Throw ExnRuntime).
Proof. exact roundtrip_lemma. Qed.
Print Assumptions C04_decode_encode.
Example C04_case_ok : snd (Decode true default_opts ($"bGlnaHQh") (repeat None 7)) = Ok 6.
Proof. vm_compute. reflexivity. Qed.
(** the round trip the header promises fails *)
Theorem C04_roundtrip_refuted : exists d text, Encode default_opts d = Ok text /\
  snd (Decode true default_opts text (repeat None 10)) = Throw ExnRuntime.
Proof. exists ($"hi"), ($"aGk="). split; vm_compute; reflexivity. Qed.
Print Assumptions C04_roundtrip_refuted.

(** C05 *)
Theorem C05_decode_language : forall sc o s buf, seven_bit s -> length s <= length buf ->
  let l := sig (ignoreInvalids o) s in
  (forallb is_symbol l = true /\ length l mod 4 = 0 ->
     length (decoded l) = 3 * (length l / 4) /\
     Decode sc o s buf = (map Some (decoded l) ++ skipn (length (decoded l)) buf, Ok (length (decoded l)))) /\
  (~ (forallb is_symbol l = true /\ length l mod 4 = 0) ->
     snd (Decode sc o s buf) = Throw ExnRuntime).
Proof. exact language_lemma. Qed.
Print Assumptions C05_decode_language.
Example C05_case : snd (Decode true (Opts true true) ($"b G.l-n") (repeat None 8)) = Ok 3
  /\ snd (Decode true default_opts ($"b Gln") (repeat None 8)) = Throw ExnRuntime.
Proof. split; vm_compute; reflexivity. Qed.

(** C06 *)
Theorem C06_padded_rejected : forall sc o s buf, seven_bit s -> length s <= length buf -> In "="%char s ->
  snd (Decode sc o s buf) = Throw ExnRuntime.
Proof. exact padded_lemma. Qed.
Print Assumptions C06_padded_rejected.
(** ... and while failing it stores one byte more than the encoded buffer had. *)
Theorem C06_padded_overruns : forall sc oe od d text, Encode oe d = Ok text -> length d mod 3 <> 0 ->
  forall buf, length buf = length d -> snd (Decode sc od text buf) = UB.
Proof. exact overrun_lemma. Qed.
Print Assumptions C06_padded_overruns.

(** C07 *)
Theorem C07_decode_fits_reported_size : forall sc o s n buf, seven_bit s ->
  IsBase64 sc o s = Ok n -> 0 < n -> n <= length buf ->
  exists w r, Decode sc o s buf = (map Some w ++ skipn (length w) buf, r) /\ length w <= n /\ r <> UB.
Proof. exact fits_lemma. Qed.
Print Assumptions C07_decode_fits_reported_size.
Example C07_case : IsBase64 true default_opts ($"bGlnaHQgdw==") = Ok 10.
Proof. vm_compute. reflexivity. Qed.

(** C08 *)
Theorem C08_isbase64_counts_symbols : forall sc o s, seven_bit s ->
  IsBase64 sc o s = Ok (symbol_count (ignoreInvalids o) s).
Proof. exact count_lemma. Qed.
Print Assumptions C08_isbase64_counts_symbols.
Theorem C08_isbase64_ratio : forall sc o s buf n m out, seven_bit s -> length s <= length buf ->
  IsBase64 sc o s = Ok n -> Decode sc o s buf = (out, Ok m) -> 4 * m = 3 * n.
Proof. exact ratio_lemma. Qed.
Print Assumptions C08_isbase64_ratio.
(** The header says the decoded size is returned. *)
Theorem C08_reported_size_refuted : exists s n m out, IsBase64 true default_opts s = Ok n /\
  Decode true default_opts s (repeat None 8) = (out, Ok m) /\ n <> m.
Proof. exists ($"bGln"), 4, 3. eexists. split; [vm_compute; reflexivity|]. split; [vm_compute; reflexivity|discriminate]. Qed.
Print Assumptions C08_reported_size_refuted.

(** C09 *)
Theorem C09_decode_undefined_iff : forall o s buf, length s <= length buf ->
  (snd (Decode true o s buf) = UB <->
   exists p c r, s = p ++ c :: r /\ seven_bit p /\ 128 <= code c /\ stopped (ignoreInvalids o) p = false).
Proof. exact decode_ub_iff. Qed.
Print Assumptions C09_decode_undefined_iff.
Theorem C09_isbase64_undefined_iff : forall o s,
  (IsBase64 true o s = UB <->
   exists p c r, s = p ++ c :: r /\ seven_bit p /\ 128 <= code c /\ stopped (ignoreInvalids o) p = false).
Proof. exact isb64_ub_iff. Qed.
Print Assumptions C09_isbase64_undefined_iff.
Theorem C09_unsigned_char_defined : forall o s buf, length s <= length buf ->
  snd (Decode false o s buf) <> UB /\ IsBase64 false o s <> UB.
Proof. exact unsigned_defined. Qed.
Print Assumptions C09_unsigned_char_defined.
Example C09_case : IsBase64 true default_opts [chr 200] = UB /\ IsBase64 true default_opts ["."%char; chr 200] = Ok 0.
Proof. split; vm_compute; reflexivity. Qed.
