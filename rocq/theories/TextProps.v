(** C21, C36: white space in numbers, and the text given with -R. *)
From Coq Require Import Permutation.
From Verif Require Import Base Str Dec PathModel MeasModel MeasFacts MeasProps RegModel ArgFacts ArgProps.

(** the white space characters of the "C" locale: space, \t, \n, \v, \f, \r *)
Definition whites : list ascii := [" "; "009"; "010"; "011"; "012"; "013"]%char.
Theorem C21_white_space : forall c, is_wspace c = true <-> In c whites.
Proof.
  intros c. split.
  - intros H. unfold is_wspace in H. assert (K : code c = 32 \/ code c = 9 \/ code c = 10 \/ code c = 11 \/ code c = 12 \/ code c = 13).
    { apply orb_true_iff in H as [H|H]; [apply Nat.eqb_eq in H; lia|]. apply andb_true_iff in H as [A B]. apply Nat.leb_le in A, B. lia. }
    assert (E : c = chr (code c)) by (unfold chr, code; symmetry; apply Ascii.ascii_nat_embedding).
    destruct K as [K|[K|[K|[K|[K|K]]]]]; rewrite K in E; rewrite E; vm_compute; auto 8.
  - intros H. repeat (destruct H as [<-|H]; [reflexivity|]). destruct H.
Qed.
Print Assumptions C21_white_space.

(** -R: after white space an optional sign and digits, whatever follows; beyond 64 bits the nearest number; of that, the low 32 bits (as a signed number).
    Other text is 0. *)
Theorem C36_expected_text : forall e s a0 ws sg ds tail rest fuel, Forall (fun c => In c whites) ws -> In sg [[]; $"+"; $"-"] -> forallb is_digit ds = true ->
  match tail with [] => True | c :: _ => is_digit c = false end -> (match rest with [] => True | a :: _ => ~ In a flags end) -> 1 < fuel ->
  (ds = [] -> sg = [] -> match tail with [] => True | c :: _ => ~ In c whites /\ c <> "+"%char /\ c <> "-"%char end) ->
  exists argc argv s', ParseAndRemoveArguments e fuel (a0 :: $"-R" :: (ws ++ sg ++ ds ++ tail) :: rest) s = (s', Ok (argc, argv)) /\ firstn argc argv = a0 :: rest /\
    let v := if eqs sg ($"-") then (- digits_value 0 ds)%Z else digits_value 0 ds in
    let v64 := Z.max (- 2 ^ 63) (Z.min (2 ^ 63 - 1) v) in
    (- 2 ^ 31 <= s_expected s' < 2 ^ 31)%Z /\ (s_expected s' mod 2 ^ 32 = v64 mod 2 ^ 32)%Z.
Proof.
  intros e s a0 ws sg ds tail rest fuel Hw Hs Hd Ht Hr Hf Hn.
  destruct (C36_arguments_removed e s a0 [($"-R", ws ++ sg ++ ds ++ tail)] rest fuel) as (argc & argv & s' & E & F & _ & _ & _ & X & _).
  - repeat constructor; cbn; auto; discriminate.
  - exact Hr.
  - exact Hf.
  - exists argc, argv, s'. split; [exact E|]. split; [exact F|]. cbv zeta. change (values ($"-R") [($"-R", ws ++ sg ++ ds ++ tail)]) with [ws ++ sg ++ ds ++ tail] in X. cbn [map last_value] in X. rewrite X. clear X E F argc argv s'.
    set (v := if eqs sg ($"-") then (- digits_value 0 ds)%Z else digits_value 0 ds).
    assert (V : strtol10 (ws ++ sg ++ ds ++ tail) = Z.max (- 2 ^ 63) (Z.min (2 ^ 63 - 1) v)).
    { unfold strtol10, read_int.
      assert (K : forall t, skip_ws (ws ++ t) = skip_ws t).
      { intros t. clear - Hw. induction ws as [|c ws IH]; [reflexivity|]. inversion Hw as [|? ? A B]; subst. cbn [app skip_ws]. apply C21_white_space in A. rewrite A. auto. }
      rewrite K. clear K Hw.
      assert (CL : forall v, clamp LONG_MIN LONG_MAX v = Z.max (- 2 ^ 63) (Z.min (2 ^ 63 - 1) v)).
      { intros u. unfold clamp, LONG_MIN, LONG_MAX. change (2 ^ 63)%Z with 9223372036854775808%Z. destruct (Z.ltb_spec u (-9223372036854775808)); [lia|]. destruct (Z.ltb_spec 9223372036854775807 u); lia. }
      destruct ds as [|c0 ds0] eqn:Eds.
      - cbn [digits_value] in v. assert (P : digit_prefix tail = []) by (destruct tail as [|c r]; [reflexivity|cbn; rewrite Ht; reflexivity]). specialize (Hn eq_refl).
        assert (Z0 : v = 0%Z) by (unfold v; destruct (eqs sg ($"-")); reflexivity). rewrite Z0. cbn [app].
        destruct Hs as [<-|[<-|[<-|[]]]]; cbn [app lit list_ascii_of_string skip_ws].
        + specialize (Hn eq_refl). destruct tail as [|c r]; [reflexivity|]. destruct Hn as (A & B & C). cbn [skip_ws]. destruct (is_wspace c) eqn:W; [apply C21_white_space in W; contradiction|].
          destruct (eqc_spec c "-") as [->|_]; [contradiction|]. destruct (eqc_spec c "+") as [->|_]; [contradiction|]. rewrite P. reflexivity.
        + change (is_wspace "+") with false. cbv iota. change (eqc "+" "-") with false. change (eqc "+" "+") with true. cbv iota. rewrite P. reflexivity.
        + change (is_wspace "-") with false. cbv iota. change (eqc "-" "-") with true. cbv iota. rewrite P. reflexivity.
      - rewrite <- Eds in *.
        assert (P : digit_prefix (ds ++ tail) = ds) by (apply digit_prefix_all; assumption).
        assert (D0 : is_wspace c0 = false /\ eqc c0 "-" = false /\ eqc c0 "+" = false).
        { rewrite Eds in Hd. cbn [forallb] in Hd. apply andb_true_iff in Hd. destruct Hd as [A _]. pose proof (digit_not_space c0) as H. rewrite A in H. cbn [negb orb] in H.
          apply andb_true_iff in H. destruct H as [H H3]. apply andb_true_iff in H. destruct H as [H1 H2]. apply negb_true_iff in H1, H2, H3. auto. }
        destruct D0 as (D1 & D2 & D3). unfold v.
        destruct Hs as [<-|[<-|[<-|[]]]]; cbn [app lit list_ascii_of_string skip_ws].
        + assert (Es : skip_ws (ds ++ tail) = ds ++ tail) by (rewrite Eds; cbn [app skip_ws]; rewrite D1; reflexivity). rewrite Es.
          assert (Ec : ds ++ tail = c0 :: ds0 ++ tail) by (rewrite Eds; reflexivity). rewrite Ec, D2, D3. rewrite <- Ec, P, Eds. rewrite <- Eds.
          change (eqs [] ($"-")) with false. cbv iota. apply CL.
        + change (is_wspace "+") with false. cbv iota. change (eqc "+" "-") with false. change (eqc "+" "+") with true. cbv iota. rewrite P, Eds. rewrite <- Eds.
          change (eqs ["+"%char] ($"-")) with false. cbv iota. apply CL.
        + change (is_wspace "-") with false. cbv iota. change (eqc "-" "-") with true. cbv iota. rewrite P, Eds. rewrite <- Eds.
          change (eqs ["-"%char] ($"-")) with true. cbv iota. apply CL. }
    rewrite V. set (u := Z.max _ _). unfold wrap32. change (2 ^ 31)%Z with 2147483648%Z. change (2 ^ 32)%Z with 4294967296%Z.
    split; [pose proof (Z.mod_pos_bound (u + 2147483648) 4294967296 eq_refl); lia|]. rewrite Zminus_mod_idemp_l. f_equal. lia.
Qed.
Print Assumptions C36_expected_text.
Example C36_expected_text_case :
  map (fun t => wrap32 (strtol10 t)) [$" " ++ ["009"%char] ++ $"-7x"; $"+3"; $"abc"; []; $"4294967297"; $"99999999999999999999"; $"-99999999999999999999"; $"0x10"] = [-7; 3; 0; 0; 1; -1; 0; 0]%Z /\
  ParseAndRemoveArguments ex_env 2 [$"prog"; $"-R"; $" -7x"] (new_test (fun _ => None)) = (set_expected (new_test (fun _ => None)) (-7), Ok (1, [$"prog"; $"-R"; $" -7x"])).
Proof. split; reflexivity. Qed.
