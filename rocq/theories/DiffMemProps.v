(** Theorems about the memory of the line difference (property C79). *)
From Verif Require Import Base Str Dec DiffModel DiffIds DiffSpec DiffFacts DiffProps DiffMemModel DiffMemFacts DiffMemBuild DiffMemRun.
Local Open Scope Z_scope.

(** A heap in which no block has a name that is still to be given out. *)
Definition sane (h : heap) : Prop := forall b, (h_next h <= b)%nat -> h_blk h b = None.
(** The same blocks, of the same sizes, with the same contents. *)
Definition same_memory (h h' : heap) : Prop := forall b, h_blk h' b = h_blk h b.
(** Request number [j] of this call is granted. *)
Definition granted (full : nat -> bool) (h : heap) (j : nat) : Prop := full (h_next h + j)%nat = false.

(** The heap program prints what the program on lists prints and fails when it fails. *)
Theorem C79_same_as_lists : forall full sc asserts f s0 s1 h, small s0 s1 -> sane h ->
  (forall j, (j < 5)%nat -> granted full h j) ->
  snd (m_Diff full sc asserts (Some f) s0 s1 h) = Diff sc asserts (Some f) s0 s1.
Proof.
  intros full sc asserts f s0 s1 h Hs Hh Hg.
  pose proof (Diff_mem full sc asserts f s0 s1 h Hs Hg Hh) as M.
  destruct (Diff sc asserts (Some f) s0 s1); try contradiction.
  - destruct M as (h' & -> & _). reflexivity.
  - destruct M as (h' & ->). reflexivity.
Qed.
Print Assumptions C79_same_as_lists.

(** If no two different lines have the same hash value, the call makes no bad access at all, succeeds, and leaves the
    memory exactly as it was: its five arrays are given back and no other block has changed. *)
Theorem C79_memory_given_back : forall full sc asserts f s0 s1 h, small s0 s1 -> distinct_hashes sc s0 s1 -> sane h ->
  (forall j, (j < 5)%nat -> granted full h j) ->
  exists out h', m_Diff full sc asserts (Some f) s0 s1 h = (h', Ok out) /\ same_memory h h'.
Proof.
  intros full sc asserts f s0 s1 h Hs Hd Hh Hg.
  pose proof (Diff_mem full sc asserts f s0 s1 h Hs Hg Hh) as M.
  destruct (C29_diff_succeeds sc s0 s1 Hs Hd) as (out & E). rewrite E in M. destruct M as (h' & M & S).
  exists out, h'. split; [exact M|exact S].
Qed.
Print Assumptions C79_memory_given_back.

(** What it prints turns the first text into the second. *)
Theorem C79_output_is_patch : forall full sc asserts f s0 s1 h out, small s0 s1 -> sane h ->
  (forall j, (j < 5)%nat -> granted full h j) -> free nul s0 -> free nul s1 ->
  snd (m_Diff full sc asserts (Some f) s0 s1 h) = Ok out -> patch out s0 = Some s1.
Proof.
  intros full sc asserts f s0 s1 h out Hs Hh Hg F0 F1 H. rewrite C79_same_as_lists in H by assumption.
  eapply C34_printed_difference_is_patch; eassumption.
Qed.
Print Assumptions C79_output_is_patch.

(** If request [j] of the five is the first that is refused, the call ends with the exception, and the [j] arrays it
    already had are left allocated for ever; the memory of others is as it was. *)
Theorem C79_refused_request : forall full sc asserts oob s0 s1 h j, small s0 s1 -> distinct_hashes sc s0 s1 -> sane h ->
  (j < 5)%nat -> (forall i, (i < j)%nat -> granted full h i) -> ~ granted full h j ->
  exists h', m_Diff full sc asserts oob s0 s1 h = (h', Throw ExnRuntime) /\
    (forall b, (b < h_next h)%nat -> h_blk h' b = h_blk h b) /\
    (forall b, (h_next h <= b < h_next h + j)%nat -> h_blk h' b <> None) /\
    (forall b, (h_next h + j <= b)%nat -> h_blk h' b = None).
Proof.
  intros full sc asserts oob s0 s1 h j Hs Hd Hh Hj Hg Hr. unfold granted in *. unfold sane in Hh.
  set (k := h_next h) in *. apply not_false_iff_true in Hr.
  destruct (Nat.eq_dec j 4) as [->|Hj4].
  { pose proof (BuildLines_mem full sc s0 s1 h Hg) as B. fold k in B.
    destruct (diff_cases sc s0 s1 Hs) as [(w0 & w1 & es & E & _)|[_ E]]; [|contradiction].
    rewrite E in B. destruct B as (h1 & M1 & N1 & I1 & H0 & H1 & L0 & L1 & O1).
    unfold m_Diff. cbv zeta. rewrite (hbind_ok _ _ _ _ _ M1).
    destruct (hnew_full full ((d_nlines (built s0 s1 k 0) false + d_nlines (built s0 s1 k 0) true) * 2 + 6) h1)
      as (h2 & M2 & O2); [rewrite N1; exact Hr|].
    rewrite (hbind_throw _ _ _ _ _ M2). exists h2. split; [reflexivity|]. split; [|split].
    - intros b Hb. rewrite O2, O1 by lia. reflexivity.
    - intros b Hb. rewrite O2.
      destruct (I1 false) as (A & EA & _), (I1 true) as (A' & EA' & _).
      destruct H0 as (A'' & EA'' & _), H1 as (A3 & EA3 & _). cbn [built d_lines two] in EA, EA'.
      assert (Cb : b = k \/ b = (k + 1)%nat \/ b = (k + 2)%nat \/ b = (k + 3)%nat) by lia.
      destruct Cb as [->|[->|[->| ->]]]; congruence.
    - intros b Hb. rewrite O2, O1 by lia. apply Hh. lia. }
  unfold m_Diff, m_BuildLines. cbv zeta.
  set (q0 := 2 * count_lines s0 1). set (q1 := 2 * count_lines s1 1). set (q2 := count_lines s0 1).
  set (q3 := count_lines s1 1).
  destruct (Nat.eq_dec j 0) as [->|J0].
  { destruct (hnew_full full q0 h) as (h1 & M1 & O1); [fold k; rewrite <- (Nat.add_0_r k); exact Hr|].
    exists h1. split; [rewrite (hbind_throw _ _ h h1 ExnRuntime); [reflexivity|]; apply hbind_throw; exact M1|].
    split; [intros; apply O1|]. split; [lia|]. intros b Hb. rewrite O1. apply Hh. lia. }
  destruct (hnew_ok full q0 h) as (h1 & M1 & N1 & B1 & O1).
  { fold k. rewrite <- (Nat.add_0_r k). apply Hg. lia. }
  fold k in M1, N1, B1, O1.
  destruct (Nat.eq_dec j 1) as [->|J1].
  { destruct (hnew_full full q1 h1) as (h2 & M2 & O2); [rewrite N1, <- Nat.add_1_r; exact Hr|].
    exists h2. split.
    { erewrite hbind_throw; [reflexivity|]. rewrite (hbind_ok _ _ _ _ _ M1). apply hbind_throw; exact M2. }
    split; [intros b Hb; rewrite O2, O1 by lia; reflexivity|]. split.
    - intros b Hb. rewrite O2. assert (b = k) as -> by lia. congruence.
    - intros b Hb. rewrite O2, O1 by lia. apply Hh. lia. }
  destruct (hnew_ok full q1 h1) as (h2 & M2 & N2 & B2 & O2).
  { rewrite N1, <- Nat.add_1_r. apply Hg. lia. }
  rewrite N1 in N2, B2, O2, M2.
  destruct (Nat.eq_dec j 2) as [->|J2].
  { destruct (hnew_full full q2 h2) as (h3 & M3 & O3).
    { rewrite N2. replace (S (S k)) with (k + 2)%nat by lia. exact Hr. }
    exists h3. split.
    { erewrite hbind_throw; [reflexivity|]. rewrite (hbind_ok _ _ _ _ _ M1), (hbind_ok _ _ _ _ _ M2). apply hbind_throw; exact M3. }
    split; [intros b Hb; rewrite O3, O2, O1 by lia; reflexivity|]. split.
    - intros b Hb. rewrite O3. assert (b = k \/ b = S k) as [->| ->] by lia; [rewrite O2 by lia|]; congruence.
    - intros b Hb. rewrite O3, O2, O1 by lia. apply Hh. lia. }
  destruct (hnew_ok full q2 h2) as (h3 & M3 & N3 & B3 & O3).
  { rewrite N2. replace (S (S k)) with (k + 2)%nat by lia. apply Hg. lia. }
  rewrite N2 in N3, B3, O3, M3.
  assert (j = 3)%nat as -> by lia.
  destruct (hnew_full full q3 h3) as (h4 & M4 & O4).
  { rewrite N3. replace (S (S (S k))) with (k + 3)%nat by lia. exact Hr. }
  exists h4. split.
  { erewrite hbind_throw; [reflexivity|].
    rewrite (hbind_ok _ _ _ _ _ M1), (hbind_ok _ _ _ _ _ M2), (hbind_ok _ _ _ _ _ M3). apply hbind_throw; exact M4. }
  split; [intros b Hb; rewrite O4, O3, O2, O1 by lia; reflexivity|]. split.
  - intros b Hb. rewrite O4. assert (b = k \/ b = S k \/ b = S (S k)) as [->|[->| ->]] by lia.
    + rewrite O3, O2 by lia. congruence.
    + rewrite O3 by lia. congruence.
    + congruence.
  - intros b Hb. rewrite O4, O3, O2, O1 by lia. apply Hh. lia.
Qed.
Print Assumptions C79_refused_request.

(** So "the memory is given back however the call ends" is false. *)
Theorem C79_always_given_back_refuted : exists full s0 s1 h h' e, sane h /\
  m_Diff full true true (Some (fun _ _ => 0)) s0 s1 h = (h', Throw e) /\ ~ same_memory h h'.
Proof.
  destruct (C79_refused_request (fun i => Nat.eqb i 1) true true (Some (fun _ _ => 0)) $"a" $"a" empty_heap 1)
    as (h' & E & _ & L & _).
  - unfold small. vm_compute. reflexivity.
  - intros a b [<-|[<-|[]]] [<-|[<-|[]]] _; reflexivity.
  - intros b _. reflexivity.
  - lia.
  - intros i Hi. assert (i = 0)%nat as -> by lia. reflexivity.
  - intros H. discriminate H.
  - exists (fun i => Nat.eqb i 1), $"a", $"a", empty_heap, h', ExnRuntime.
    split; [intros b _; reflexivity|]. split; [exact E|]. intros S. apply (L 0%nat); [cbn; lia|]. apply S.
Qed.
Print Assumptions C79_always_given_back_refuted.

(** The theorems at work: two texts of four lines, with two blocks of somebody else's in the heap. *)
Definition c79_heap : heap :=
  mkheap 7 (fun b => if Nat.eqb b 2 then Some (3, fun i => Some i) else if Nat.eqb b 6 then Some (1, fun _ => None) else None).
Lemma c79_sane : sane c79_heap.
Proof.
  intros b Hb. cbn in Hb |- *. destruct (Nat.eqb_spec b 2); [lia|]. destruct (Nat.eqb_spec b 6); [lia|reflexivity].
Qed.
Lemma c79_distinct : distinct_hashes true $"a
b
c" $"a
x
c
d".
Proof.
  intros a b Ha Hb. vm_compute in Ha, Hb.
  repeat (destruct Ha as [<-|Ha]; [repeat (destruct Hb as [<-|Hb]; [vm_compute; intros E; first [reflexivity|discriminate E]|]); destruct Hb|]).
  destruct Ha.
Qed.
Example C79_given_back_met := C79_memory_given_back (fun _ => false) true true (fun _ _ => 5) $"a
b
c" $"a
x
c
d" c79_heap ltac:(unfold small; vm_compute; reflexivity) c79_distinct c79_sane (fun j _ => eq_refl).
Example C79_same_met := C79_same_as_lists (fun _ => false) true false (fun _ _ => 5) $"a
b
c" $"a
x
c
d" c79_heap ltac:(unfold small; vm_compute; reflexivity) c79_sane (fun j _ => eq_refl).
Example C79_patch_met := C79_output_is_patch (fun _ => false) true false (fun _ _ => 5) $"a
b
c" $"a
x
c
d" c79_heap _ ltac:(unfold small; vm_compute; reflexivity) c79_sane (fun j _ => eq_refl)
  ltac:(apply freeb_spec; vm_compute; reflexivity) ltac:(apply freeb_spec; vm_compute; reflexivity) ltac:(vm_compute; reflexivity).
Example C79_refused_met := C79_refused_request (fun b => Nat.eqb b 11) true true None $"a
b
c" $"a
x
c
d" c79_heap 4 ltac:(unfold small; vm_compute; reflexivity) c79_distinct c79_sane ltac:(repeat constructor)
  ltac:(intros i Hi; unfold granted; cbn; apply Nat.eqb_neq; lia) ltac:(intros H; discriminate H).
(** A collision of hash values: the end of the table is dereferenced on the heap as on lists. *)
Example C79_collision_case : exists s0 s1, snd (m_Diff (fun _ => false) true true (Some (fun _ _ => 0)) s0 s1 c79_heap) = UB.
Proof.
  exists [nul; nl], [nul; nul]. vm_compute. reflexivity.
Qed.
