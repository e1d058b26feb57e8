(** The member functions of BufModel have the values MeasModel gives them. *)
From Coq Require Import Floats.SpecFloat.
From Verif Require Import Base Str B64Model MeasModel BufModel BufFacts.

Lemma get_alive s o x : alive s o x -> get o s = (s, Ok x).
Proof. unfold alive, get. intros ->. reflexivity. Qed.
Lemma fetch_live s a l : live s a l -> fetch a s = (s, Ok l).
Proof. unfold live, fetch. intros ->. reflexivity. Qed.
Lemma store_live s a l m : live s a l -> store_at a m s = (Bst (update a (Live m) (b_heap s)) (b_objs s), Ok tt).
Proof. unfold live, store_at. intros ->. reflexivity. Qed.
Lemma cells_live s a l : live s a l -> cells_at (b_heap s) (Some a) = Some l.
Proof. unfold live, cells_at. intros ->. reflexivity. Qed.
Lemma no_data s o x : good s -> alive s o x -> ddata (erase (b_heap s) x) = None -> o_data x = None.
Proof. intros [G _] L E. destruct (o_data x) as [a|] eqn:D; [|reflexivity]. destruct (G o x a L D) as (l & H & _). cbn [erase ddata] in E. rewrite D, (cells_live s a l H) in E. discriminate E. Qed.
Lemma some_data s o x l : good s -> alive s o x -> ddata (erase (b_heap s) x) = Some l -> exists a, o_data x = Some a /\ live s a l /\ o_size x = Some (length l).
Proof.
  intros [G _] L E. destruct (o_data x) as [a|] eqn:D; [|cbn [erase ddata] in E; rewrite D in E; discriminate E]. destruct (G o x a L D) as (l' & H & Es).
  cbn [erase ddata] in E. rewrite D, (cells_live s a l' H) in E. injection E as <-. exists a. auto.
Qed.
Lemma done_seen {A} o s x (out : bst * res A) d r d' r' : done o s x out d r -> d = d' -> r = r' -> done o s x out d' r'.
Proof. intros H <- <-. exact H. Qed.

Lemma acts_SetContent o t : acts o (b_SetContent o t) (fun p => (SetContent (fst p) t, S (snd p), Ok tt)).
Proof.
  intros s x G L. destruct (acts_attr o (fun x => with_text x t) (fun p => (Dm (dname (fst p)) (desc (fst p)) (dcls (fst p)) (denc (fst p)) (dcomp (fst p)) t (ddata (fst p)), S (snd p)))
    (fun x => conj eq_refl (conj eq_refl eq_refl)) (fun h x => eq_refl) s x G L) as (s1 & x1 & E1 & G1 & T1 & L1 & V1 & C1). cbn [fst snd] in *.
  unfold b_SetContent. unfold bbind in *. rewrite (get_alive s o x L) in *. rewrite E1. eapply done_after; [exact T1|exact C1|].
  eapply done_seen; [exact (acts_Delete o s1 x1 G1 L1)| |reflexivity]. cbn [lift fst snd]. rewrite V1. reflexivity.
Qed.
Lemma acts_Update sc o : acts o (b_Update sc o) (lift (UpdateContentAsData sc)).
Proof.
  intros s x G L. destruct (acts_Delete o s x G L) as (s1 & x1 & E1 & G1 & T1 & L1 & V1 & C1). cbn [lift fst snd] in *.
  set (d := erase (b_heap s) x) in *. cbn [seen fst snd] in V1. apply pair_equal_spec in V1. destruct V1 as [V1 W1]. change (erase (b_heap s) x) with d in V1.
  unfold b_Update, bbind at 1. rewrite E1. unfold bbind at 1. rewrite (get_alive _ _ _ L1). eapply done_after; [exact T1|exact C1|].
  unfold UpdateContentAsData. change (fst (seen (b_heap s) x)) with d. change (snd (seen (b_heap s) x)) with (o_ver x).
  assert (Ee : o_enc x1 = denc (DeleteContentAsData d)) by (rewrite <- V1; reflexivity).
  assert (Et : o_text x1 = dcontent (DeleteContentAsData d)) by (rewrite <- V1; reflexivity).
  assert (Ed : o_data x1 = None) by (apply (no_data s1 o x1 G1 L1); rewrite V1; reflexivity).
  assert (H0 : forall (A : Type) (r : res A), done o s1 x1 (s1, r) (DeleteContentAsData d, o_ver x) r).
  { intros A r. eapply done_seen; [exact (done_here o s1 x1 r G1 L1)| |reflexivity]. unfold seen. rewrite V1, W1. reflexivity. }
  rewrite Ee, Et. destruct (eqs (denc (DeleteContentAsData d)) ($"none")); [apply H0|]. destruct (eqs (denc (DeleteContentAsData d)) ($"base64")); [|apply H0].
  unfold bbind at 1, bfail at 1. destruct (IsBase64 sc default_opts (dcontent (DeleteContentAsData d))) as [n|i| | |]; try apply H0.
  unfold bbind at 1, BufModel.put at 1. set (y := with_data x1 None (Some n)).
  destruct (replaced_same s1 o x1 y G1 L1 (eq_sym Ed)) as [G2 T2]; [intros a Ha; congruence|]. pose proof (alive_replaced s1 o x1 y L1) as L2. fold (replaced s1 o y).
  eapply done_after; [exact T2|reflexivity|]. destruct n as [|n].
  { eapply done_seen; [exact (done_here o _ y (Ok tt) G2 L2)| |reflexivity]. cbn [fst snd]. unfold seen. rewrite erase_none by reflexivity. rewrite <- V1, <- W1. unfold erase. rewrite Ed. reflexivity. }
  unfold bbind at 1, alloc at 1. destruct (allocate (replaced s1 o y) o y (repeat None (S n)) G2 L2 eq_refl) as (G3 & T3 & L3 & H3). rewrite repeat_length in *.
  set (a := length (b_heap (replaced s1 o y))) in *. set (z := with_data x1 (Some a) (Some (S n))). change (with_data y (Some a) (Some (S n))) with z in *.
  unfold bbind at 1, BufModel.put at 1. cbn [b_heap b_objs] in *. set (s3 := Bst (b_heap (replaced s1 o y) ++ [Live (repeat None (S n))]) (update o (Some z) (b_objs (replaced s1 o y)))) in *.
  eapply done_after; [exact T3|reflexivity|]. unfold bbind at 1. rewrite (fetch_live _ _ _ H3).
  pose proof (decode_length sc default_opts (dcontent (DeleteContentAsData d)) (repeat None (S n))) as Len. destruct (Decode sc default_opts (dcontent (DeleteContentAsData d)) (repeat None (S n))) as [mem r]. cbn [fst] in Len.
  unfold bbind at 1. rewrite (store_live _ _ _ mem H3). destruct (written_block s3 o z a _ mem G3 L3 eq_refl H3 Len) as (G4 & T4 & H4).
  eapply done_after; [exact T4|reflexivity|]. unfold bfail. eapply done_seen; [exact (done_here o _ z _ G4 L3)| |reflexivity].
  cbn [fst snd]. unfold seen, erase. change (o_data z) with (Some a). rewrite (cells_live _ _ _ H4). rewrite <- V1, <- W1. reflexivity.
Qed.
Lemma acts_ensure sc o : acts o (b_ensure sc o) (lift (ensure_data sc)).
Proof.
  intros s x G L. unfold b_ensure, bbind. rewrite (get_alive _ _ _ L). unfold ensure_data, lift at 1 2. cbn [fst snd seen].
  destruct (ddata (erase (b_heap s) x)) as [l|] eqn:D.
  - destruct (some_data s o x l G L D) as (a & -> & _). apply (done_here o s x (Ok tt) G L).
  - rewrite (no_data s o x G L D). exact (acts_Update sc o s x G L).
Qed.
Lemma acts_GetSize sc o : acts o (b_GetSize sc o) (lift (GetContentAsDataSize sc)).
Proof.
  intros s x G L. destruct (acts_ensure sc o s x G L) as (s1 & x1 & E1 & G1 & T1 & L1 & V1 & C1). unfold b_GetSize, bbind at 1. rewrite E1. unfold lift in *. cbn [seen fst snd] in *.
  unfold GetContentAsDataSize. destruct (ensure_data sc (erase (b_heap s) x)) as [d r]. cbn [fst snd] in *. apply pair_equal_spec in V1. destruct V1 as [V1 W1].
  eapply done_after; [exact T1|exact C1|]. rewrite <- V1, <- W1. destruct r as [u|i| | |]; cbn [bind]; try (apply (done_here o s1 x1 _ G1 L1)).
  unfold bbind. rewrite (get_alive _ _ _ L1). destruct (o_data x1) as [a|] eqn:D.
  - destruct (proj1 G1 o x1 a L1 D) as (l & H & Es). rewrite Es. unfold data_view. cbn [erase ddata]. rewrite D, (cells_live _ _ _ H). apply (done_here o s1 x1 _ G1 L1).
  - unfold data_view. cbn [erase ddata dcontent]. rewrite D. cbn [cells_at]. rewrite map_length. apply (done_here o s1 x1 _ G1 L1).
Qed.
(** the pointer to an object's bytes *)
Definition ptr_of (o : nat) (x : obj) : ptr := match o_data x with Some a => PBuf a | None => PText o (o_ver x) end.
Definition ending (x : obj) : list cell := match o_data x with Some _ => [] | None => [Some (chr 0)] end.
Lemma look_ptr s o x : good s -> alive s o x -> look (ptr_of o x) s = (s, Ok (data_view (erase (b_heap s) x) ++ ending x)).
Proof.
  intros G L. unfold ptr_of, ending, data_view. cbn [erase ddata dcontent]. destruct (o_data x) as [a|] eqn:D.
  - destruct (proj1 G o x a L D) as (l & H & _). rewrite (cells_live _ _ _ H). cbn [look]. rewrite (fetch_live _ _ _ H), app_nil_r. reflexivity.
  - cbn [cells_at look]. unfold bbind. rewrite (get_alive _ _ _ L), Nat.eqb_refl. unfold bret. rewrite map_app. reflexivity.
Qed.
Lemma GetData_spec sc o s x : good s -> alive s o x -> exists s' x', good s' /\ touch o s s' /\ alive s' o x' /\ o_local x' = o_local x /\ o_ver x' = o_ver x /\
  erase (b_heap s') x' = fst (GetContentAsData sc (erase (b_heap s) x)) /\
  b_GetData sc o s = (s', _ <-- snd (GetContentAsData sc (erase (b_heap s) x)) ;; Ok (ptr_of o x')) /\
  (forall l, snd (GetContentAsData sc (erase (b_heap s) x)) = Ok l -> l = data_view (erase (b_heap s') x')).
Proof.
  intros G L. destruct (acts_ensure sc o s x G L) as (s1 & x1 & E1 & G1 & T1 & L1 & V1 & C1). unfold b_GetData, bbind at 1. rewrite E1. unfold lift in *. cbn [seen fst snd] in *.
  unfold GetContentAsData. destruct (ensure_data sc (erase (b_heap s) x)) as [d r]. cbn [fst snd] in *. apply pair_equal_spec in V1. destruct V1 as [V1 W1].
  exists s1, x1. split; [exact G1|]. split; [exact T1|]. split; [exact L1|]. split; [exact C1|]. split; [exact W1|]. split; [exact V1|]. rewrite V1. destruct r as [u|i| | |]; cbn [bind]; (split; [|intros l E; try discriminate E]); try reflexivity.
  - unfold bbind. rewrite (get_alive _ _ _ L1). reflexivity.
  - injection E as <-. reflexivity.
Qed.

(** SetContentAsData with bytes that may be indeterminate *)
Definition SetCells (d : dm) (cells : list cell) : dm * nat * res unit :=
  let d := set_data (DeleteContentAsData d) (Some cells) in
  let '(d, now) := if eqs (dcomp d) ($"none") then (d, cells) else (DeleteContentAsData d, []) in
  if eqs (denc d) ($"none") then (d, 0, Ok tt)
  else if eqs (denc d) ($"base64") then
    match (match known now with Some bytes => Encode default_opts bytes | None => UB end) with
    | Ok t => (SetContent d t, 1, Ok tt)
    | Throw e => (d, 0, Throw e) | UB => (d, 0, UB) | Abort => (d, 0, Abort) | Hang => (d, 0, Hang)
    end
  else (d, 0, Ok tt).
Lemma known_bytes b : known (map Some b) = Some b.
Proof. induction b as [|c b IH]; [reflexivity|]. cbn [map known]. rewrite IH. reflexivity. Qed.
Lemma SetCells_bytes d b : fst (fst (SetCells d (map Some b))) = fst (SetContentAsData d b) /\ snd (SetCells d (map Some b)) = snd (SetContentAsData d b).
Proof.
  unfold SetCells, SetContentAsData. cbv zeta. unfold cell in *. set (e := set_data (DeleteContentAsData d) (Some (map Some b))). destruct (eqs (dcomp e) ($"none")).
  - destruct (eqs (denc e) ($"none")); [split; reflexivity|]. destruct (eqs (denc e) ($"base64")); [|split; reflexivity]. rewrite known_bytes. destruct (Encode default_opts b); split; reflexivity.
  - change (denc (DeleteContentAsData e)) with (denc e). destruct (eqs (denc e) ($"none")); [split; reflexivity|]. destruct (eqs (denc e) ($"base64")); [|split; reflexivity]. cbn [known]. destruct (Encode default_opts []); split; reflexivity.
Qed.
(** where the bytes come from *)
Definition source_of (s : bst) (p : src) (n : nat) (cells : list cell) : Prop :=
  exists l, n <= length l /\ cells = firstn n l /\ match p with Own b => l = map Some b | At q => snd (look q s) = Ok l end.
Definition is_own (s : bst) (o : nat) (p : src) : Prop := match p with At (PBuf a) => owns s o a | _ => False end.
Lemma look_state p s : fst (look p s) = s.
Proof. destruct p as [a|o v]; cbn [look]; [reflexivity|]. unfold bbind, get. destruct (nth_error (b_objs s) o) as [[x|]|]; try reflexivity. destruct (v =? o_ver x); reflexivity. Qed.
Lemma look_kept s s' o x x' p l : touch o s s' -> alive s o x -> alive s' o x' -> o_text x' = o_text x -> o_ver x' = o_ver x -> ~ is_own s o (At p) -> snd (look p s) = Ok l -> look p s' = (s', Ok l).
Proof.
  intros T L L' Et Ev N. destruct p as [a|k v]; cbn [look is_own] in *.
  - unfold fetch. cbn [snd]. destruct (nth_error (b_heap s) a) as [[c|]|] eqn:E; try discriminate. rewrite (t_heap _ _ _ T a _ E N). intros ->. reflexivity.
  - unfold bbind. destruct (Nat.eq_dec k o) as [->|Nk].
    + rewrite (get_alive _ _ _ L), (get_alive _ _ _ L'), Et, Ev. destruct (v =? o_ver x); [|discriminate]. cbn [bret snd]. unfold bret. cbn [snd]. intros ->. reflexivity.
    + unfold get. rewrite (t_objs _ _ _ T k Nk). destruct (nth_error (b_objs s) k) as [[y|]|]; try discriminate. destruct (v =? o_ver y); [|discriminate]. unfold bret. cbn [snd]. intros ->. reflexivity.
Qed.
Lemma SetData_spec o p n cells s x : good s -> alive s o x -> source_of s p n cells -> ~ is_own s o p ->
  done o s x (b_SetData o p n s) (fst (fst (SetCells (erase (b_heap s) x) cells)), snd (fst (SetCells (erase (b_heap s) x) cells)) + o_ver x) (snd (SetCells (erase (b_heap s) x) cells)).
Proof.
  intros G L (l & Ln & Ec & Src) N. destruct (acts_Delete o s x G L) as (s1 & x1 & E1 & G1 & T1 & L1 & V1 & C1). cbn [lift seen fst snd] in *. apply pair_equal_spec in V1. destruct V1 as [V1 W1].
  unfold b_SetData, bbind at 1. rewrite E1. unfold bbind at 1, alloc at 1. set (d := erase (b_heap s) x) in *.
  assert (Ed : o_data x1 = None) by (apply (no_data s1 o x1 G1 L1); rewrite V1; reflexivity).
  destruct (allocate s1 o x1 (repeat None n) G1 L1 Ed) as (G3 & T3 & L3 & H3). rewrite repeat_length in *.
  set (a := length (b_heap s1)) in *. set (z := with_data x1 (Some a) (Some n)) in *.
  unfold bbind at 1, get at 1. cbn [b_objs]. rewrite (L1 : nth_error _ _ = _). unfold bbind at 1, BufModel.put at 1. cbn [b_heap b_objs]. fold z.
  set (s3 := Bst (b_heap s1 ++ [Live (repeat None n)]) (update o (Some z) (b_objs s1))) in *.
  pose proof (touch_trans _ _ _ _ T1 T3) as T13.
  assert (Tk : take_bytes p n s3 = (s3, Ok cells)).
  { unfold take_bytes, bbind. destruct p as [b|q].
    - cbv beta iota delta [bret]. change (map Some b : list cell) with (map (@Some ascii) b). rewrite <- Src. apply Nat.leb_le in Ln. unfold cell in *. rewrite Ln, Ec. reflexivity.
    - rewrite (look_kept s s3 o x z q l T13 L L3); [|change (o_text z) with (dcontent (erase (b_heap s1) x1)); rewrite V1; reflexivity|exact W1|exact N|exact Src].
      apply Nat.leb_le in Ln. unfold cell in *. rewrite Ln, Ec. reflexivity. }
  unfold bbind at 1. rewrite Tk. unfold bbind at 1. rewrite (store_live _ _ _ cells H3).
  assert (Lc : length cells = length (repeat (@None ascii) n)) by (rewrite Ec, firstn_length, repeat_length; lia).
  destruct (written_block s3 o z a _ cells G3 L3 eq_refl H3 Lc) as (G4 & T4 & H4). set (s4 := Bst (update a (Live cells) (b_heap s3)) (b_objs s3)) in *.
  change (alive s4 o z) in L3. eapply done_after; [exact (touch_trans _ _ _ _ T13 T4)|exact C1|].
  assert (Vz : erase (b_heap s4) z = set_data (DeleteContentAsData d) (Some cells)).
  { unfold erase. change (o_data z) with (Some a). rewrite (cells_live _ _ _ H4). rewrite <- V1. reflexivity. }
  assert (Wz : o_ver z = o_ver x) by exact W1.
  unfold SetCells. cbv zeta. set (d4 := set_data (DeleteContentAsData d) (Some cells)) in *.
  assert (Ecm : o_comp x1 = dcomp d4) by (rewrite <- Vz; reflexivity). assert (Een : o_enc x1 = denc d4) by (rewrite <- Vz; reflexivity). rewrite Ecm, Een.
  assert (Go : forall s5 x5 d5 now, good s5 -> alive s5 o x5 -> seen (b_heap s5) x5 = (d5, o_ver x) -> denc d5 = denc d4 -> (ddata d5 = Some now \/ ddata d5 = None /\ now = []) ->
    let m := (if eqs (denc d4) ($"none") then bret tt
       else if eqs (denc d4) ($"base64") then
        x <. get o ;; l <. (match o_data x with Some a => fetch a | None => bret [] end) ;;
        t <. bfail (match known l with Some bytes => Encode default_opts bytes | None => UB end) ;; b_SetContent o t
       else bret tt) in
    let v := (if eqs (denc d5) ($"none") then (d5, 0, Ok tt)
      else if eqs (denc d5) ($"base64") then
       match (match known now with Some bytes => Encode default_opts bytes | None => UB end) with
       | Ok t => (SetContent d5 t, 1, Ok tt)
       | Throw e => (d5, 0, Throw e) | UB => (d5, 0, UB) | Abort => (d5, 0, Abort) | Hang => (d5, 0, Hang)
       end else (d5, 0, Ok tt)) in done o s5 x5 (m s5) (fst (fst v), snd (fst v) + o_ver x) (snd v)).
  { intros s5 x5 d5 now G5 L5 V5 Ee Dn. cbv zeta. rewrite Ee.
    assert (H0 : forall (r : res unit), done o s5 x5 (s5, r) (d5, 0 + o_ver x) r) by (intros r; eapply done_seen; [exact (done_here o s5 x5 r G5 L5)|exact V5|reflexivity]).
    destruct (eqs (denc d4) ($"none")); [apply H0|]. destruct (eqs (denc d4) ($"base64")); [|apply H0].
    unfold bbind at 1. rewrite (get_alive _ _ _ L5).
    assert (F : (match o_data x5 with Some a0 => fetch a0 | None => bret [] end) s5 = (s5, Ok now)).
    { unfold seen in V5. apply pair_equal_spec in V5. destruct V5 as [V5 _]. rewrite <- V5 in Dn. destruct Dn as [Dn|[Dn ->]].
      - destruct (some_data s5 o x5 now G5 L5 Dn) as (a5 & -> & H5 & _). exact (fetch_live _ _ _ H5).
      - rewrite (no_data s5 o x5 G5 L5 Dn). reflexivity. }
    unfold bbind at 1. rewrite F. unfold bbind at 1, bfail at 1.
    destruct (match known now with Some bytes => Encode default_opts bytes | None => UB end) as [t|i| | |]; try apply H0.
    eapply done_seen; [exact (acts_SetContent o t s5 x5 G5 L5)| |reflexivity]. cbn [fst snd]. rewrite V5. reflexivity. }
  unfold bbind at 1. destruct (eqs (dcomp d4) ($"none")).
  - unfold bret at 1. apply (Go s4 z d4 cells G4 L3); [unfold seen; rewrite Vz, Wz; reflexivity|reflexivity|left; reflexivity].
  - destruct (acts_Delete o s4 z G4 L3) as (s5 & x5 & E5 & G5 & T5 & L5 & V5 & C5). cbn [lift seen fst snd] in *. rewrite E5. eapply done_after; [exact T5|exact C5|].
    apply (Go s5 x5 (DeleteContentAsData d4) [] G5 L5); [rewrite Vz, Wz in V5; exact V5|reflexivity|right; split; reflexivity].
Qed.
