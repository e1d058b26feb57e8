(** File measurements in BufModel: loading, comparing, and what an exception leaves behind. *)
From Coq Require Import Floats.SpecFloat.
From Verif Require Import Base Str B64Model MeasModel BufModel BufFacts BufActs BufGentle BufEqual.

Lemma owned_replaced s o x y a : alive s o x -> o_data y = o_data x -> o_local y = o_local x -> owned (replaced s o y) a <-> owned s a.
Proof.
  intros L Ed Ec. split; intros (k & z & Z & C & D); destruct (Nat.eq_dec k o) as [->|N].
  - rewrite (alive_same _ _ _ _ Z (alive_replaced s o x y L)) in *. exists o, x. split; [exact L|split; congruence].
  - exists k, z. split; [apply (alive_other s o y k z N); exact Z|auto].
  - rewrite (alive_same _ _ _ _ Z L) in *. exists o, y. split; [exact (alive_replaced s o x y L)|split; congruence].
  - exists k, z. split; [apply (alive_other s o y k z N); exact Z|auto].
Qed.
(** an attribute of a new object *)
Lemma gentle_attr P LB LO s s' o x y : gentle P LB LO s s' -> length (b_objs s) <= o -> alive s' o x -> o_data y = o_data x -> o_size y = o_size x -> o_local y = o_local x -> gentle P LB LO s (replaced s' o y).
Proof.
  intros H Le L Ed Es Ec. destruct (replaced_same s' o x y (g_good _ _ _ _ _ H) L Ed (fun _ _ => Es)) as [G' T].
  pose proof (alive_replaced s' o x y L) as Ly. pose proof (fun a => owned_replaced s' o x y a L Ed Ec) as Ow.
  split; try apply H.
  - exact G'.
  - intros k z Z. destruct (g_obj _ _ _ _ _ H k z Z) as (z' & Z' & R). exists z'. split; [|exact R]. apply alive_other; [|exact Z']. intros ->. pose proof (alive_lt _ _ _ Z). lia.
  - intros k z Z. destruct (Nat.eq_dec k o) as [->|N]; [|apply (alive_other s' o y k z N) in Z; apply (g_back _ _ _ _ _ H k z Z)].
    rewrite (alive_same _ _ _ _ Z Ly) in *. rewrite Ec. exact (g_back _ _ _ _ _ H o x L).
  - intros k I. destruct (g_lo _ _ _ _ _ H k I) as (Lk & z & Z & C). split; [exact Lk|]. destruct (Nat.eq_dec k o) as [->|N]; [|exists z; split; [apply alive_other; auto|exact C]].
    exists y. split; [exact Ly|]. rewrite (alive_same _ _ _ _ Z L) in C. congruence.
  - intros a l Ha. destruct (g_new _ _ _ _ _ H a l Ha) as [X|[X|X]]; auto. right; left. apply Ow. exact X.
  - intros a I. destruct (g_lb _ _ _ _ _ H a I) as (La & X & Y). split; [exact La|]. split; [exact X|]. intros Z. apply Y, Ow, Z.
  - cbn [replaced b_heap b_objs]. rewrite update_length. apply (g_len _ _ _ _ _ H).
Qed.
(** a new object and its block are deleted *)
Lemma gentle_destroy P s s' o x : gentle P (block_of x) [o] s s' -> alive s' o x -> o_local x = true -> exists s2, b_Destroy o s' = (s2, Ok tt) /\ gentle P [] [] s s2 /\ (forall k z, k <> o -> alive s' k z -> alive s2 k z /\ erase (b_heap s2) z = erase (b_heap s') z).
Proof.
  intros H L C. destruct (acts_Delete o s' x (g_good _ _ _ _ _ H) L) as (s1 & x1 & E1 & G1 & T1 & L1 & V1 & C1). cbn [lift seen fst snd] in *. apply pair_equal_spec in V1. destruct V1 as [V1 _].
  assert (D1 : o_data x1 = None) by (apply (no_data s1 o x1 G1 L1); rewrite V1; reflexivity).
  unfold b_Destroy, bbind. rewrite E1. set (s2 := Bst (b_heap s1) (update o None (b_objs s1))). exists s2. split; [reflexivity|]. apply and_comm. split.
  { intros k z N Z. split; [unfold alive, s2; cbn [b_objs]; rewrite update_other by auto; rewrite (t_objs _ _ _ T1 k N); exact Z|].
    unfold erase. f_equal. destruct (o_data z) as [a|] eqn:D; [|reflexivity]. destruct (proj1 (g_good _ _ _ _ _ H) k z a Z D) as (l & Hl & _). rewrite (cells_live _ _ _ Hl). apply (cells_live s2). apply (t_heap _ _ _ T1); [exact Hl|].
    intros O. apply N. apply (proj2 (g_good _ _ _ _ _ H) k o a); [exists z; auto|exact O]. }
  destruct (g_lo _ _ _ _ _ H o (in_eq _ _)) as (Lo & _).
  assert (K : forall k z, alive s2 k z <-> alive s' k z /\ k <> o).
  { intros k z. unfold alive, s2. cbn [b_objs]. destruct (Nat.eq_dec o k) as [<-|N]; [rewrite (update_at _ _ _ _ L1); split; [discriminate|intros [_ X]; contradiction]|].
    rewrite update_other by exact N. rewrite (t_objs _ _ _ T1 k (not_eq_sym N)). split; [intros X; split; auto|intros [X _]; exact X]. }
  assert (Ow : forall a, owned s2 a <-> owned s' a).
  { intros a. split; intros (k & z & Z & R).
    - exists k, z. split; [apply K in Z; apply Z|exact R].
    - exists k, z. split; [|exact R]. apply K. split; [exact Z|]. intros ->. rewrite (alive_same _ _ _ _ Z L) in R. destruct R. congruence. }
  assert (Kl : forall a l, live s2 a l -> live s' a l /\ ~ owns s' o a).
  { intros a l Ha. destruct (t_keep _ _ _ T1 a l Ha) as [(z & Z & D)|((l' & Hl') & N)]; [rewrite (alive_same _ _ _ _ Z L1) in D; congruence|]. split; [|exact N].
    pose proof (t_heap _ _ _ T1 a _ Hl' N) as X. unfold live in *. cbn [s2 b_heap] in *. congruence. }
  assert (Kl' : forall a l, live s' a l -> ~ owns s' o a -> live s2 a l) by (intros a l Ha N; exact (t_heap _ _ _ T1 a _ Ha N)).
  assert (Nw : forall a, a < length (b_heap s) -> ~ owns s' o a).
  { intros a La (z & Z & D). rewrite (alive_same _ _ _ _ Z L) in D. destruct (g_lb _ _ _ _ _ H a) as (La' & _); [unfold block_of; rewrite D, C; apply in_eq|lia]. }
  split.
  - split.
    + intros k z a Z D. apply K in Z. destruct Z as [Z N]. destruct (proj1 (g_good _ _ _ _ _ H) k z a Z D) as (l & Hl & E). exists l. split; [|exact E]. apply Kl'; [exact Hl|].
      intros O. apply N. apply (proj2 (g_good _ _ _ _ _ H) k o a); [exists z; auto|exact O].
    + intros k k' a (z & Z & D) (z' & Z' & D'). apply K in Z, Z'. apply (proj2 (g_good _ _ _ _ _ H) k k' a); [exists z|exists z']; split; try assumption; [apply Z|apply Z'].
  - intros k z Z. destruct (g_obj _ _ _ _ _ H k z Z) as (z' & Z' & R). exists z'. split; [|exact R]. apply K. split; [exact Z'|]. intros ->. pose proof (alive_lt _ _ _ Z). lia.
  - intros k z Z. apply K in Z. destruct Z as [Z N]. destruct (g_back _ _ _ _ _ H k z Z) as [X|[[X|[]] _]]; [auto|congruence].
  - intros k [].
  - intros a l Ha. apply Kl'; [exact (g_live _ _ _ _ _ H a l Ha)|]. apply Nw. exact (live_lt _ _ _ Ha).
  - intros a l Ha. destruct (Kl a l Ha) as [Hs N]. destruct (g_new _ _ _ _ _ H a l Hs) as [X|[X|X]]; [auto|right; left; apply Ow; exact X|].
    exfalso. apply N. unfold block_of in X. destruct (o_data x) as [b|] eqn:D; [|destruct X]. rewrite C in X. destruct X as [<-|[]]. exists x. auto.
  - intros a [].
  - split; constructor.
  - cbn [s2 b_heap b_objs]. rewrite update_length, (t_len _ _ _ T1). pose proof (t_grow _ _ _ T1). pose proof (g_len _ _ _ _ _ H). lia.
Qed.
(** a local object's block stays while others are worked on *)
Lemma gentle_local P LO s s' o x x' : gentle P [] LO s s' -> good s -> alive s o x -> alive s' o x' -> o_local x = true -> block_of x' = block_of x.
Proof.
  intros H G L L' C. destruct (g_obj _ _ _ _ _ H o x L) as (y & Ly & (_ & _ & _ & _ & _ & _ & _ & Cy) & D & _). rewrite (alive_same _ _ _ _ Ly L') in *.
  unfold block_of. rewrite Cy. destruct D as [->|[D N]]; [reflexivity|]. rewrite D. destruct (o_data x') as [a|] eqn:D'; [|reflexivity]. exfalso.
  destruct (proj1 (g_good _ _ _ _ _ H) o x' a L' D') as (l & Hl & _). pose proof (N a eq_refl). destruct (g_new _ _ _ _ _ H a l Hl) as [X|[(k & z & Z & Cz & Dz)|[]]]; [pose proof (live_lt _ _ _ X); lia|].
  assert (k = o) as -> by (apply (proj2 (g_good _ _ _ _ _ H) k o a); [exists z; auto|exists x'; auto]). rewrite (alive_same _ _ _ _ Z L') in Cz. congruence.
Qed.

(** what a comparison that throws leaves: for a directory, the file's buffer, the object and its block *)
Definition dir_blocks (e : benv) : nat := match e_dir e with Some _ => 2 | None => 0 end.
Definition dir_objs (e : benv) : nat := match e_dir e with Some _ => 1 | None => 0 end.
Definition no_one : nat -> Prop := fun _ => False.
Lemma fresh_not (P : nat -> Prop) LB LO s s' : gentle (eq (length (b_objs s))) LB LO s s' -> (forall k, P k -> False) -> gentle P LB LO s s'.
Proof. intros H _. revert H. apply gentle_weak. intros k x L <-. pose proof (alive_lt _ _ _ L). lia. Qed.
(** the steps of Load up to the new object's name *)
Lemma fill s buff cells c m name : good s -> buff = length (b_heap s) -> m <= length cells ->
  let sA := Bst (b_heap s ++ [Live cells]) (b_objs s) in let sB := Bst (b_heap sA) (b_objs sA ++ [Some (new_obj true c)]) in let d := length (b_objs s) in
  exists sC x y, b_SetData d (At (PBuf buff)) m sB = (sC, Ok tt) /\ alive sC d x /\ y = with_name x name /\ gentle no_one (buff :: block_of y) [d] s (replaced sC d y) /\
    erase (b_heap sC) y = SetAttributeName (fst (fst (SetCells (new_dm c) (firstn m cells)))) name /\ o_local y = true /\ o_enc y = $"none" /\ length (block_of y) = 1 /\ (forall k, ~ owns (replaced sC d y) k buff).
Proof.
  intros G -> Lm sA sB d. pose proof (gentle_alloc cells s G) as HA. fold sA in HA.
  destruct (gentle_create (new_obj true c) sA (g_good _ _ _ _ _ HA) eq_refl) as [HB|X]; [|discriminate X]. cbn [o_local new_obj] in HB. change (length (b_objs sA)) with d in HB. fold sB in HB.
  pose proof (gentle_trans _ _ _ _ _ _ _ _ HA HB) as HAB. cbn [app] in HAB.
  assert (LB : alive sB d (new_obj true c)) by apply nth_app_end.
  assert (GB : good sB) by apply (g_good _ _ _ _ _ HB).
  assert (Hb : live sB (length (b_heap s)) cells) by (unfold live; cbn [sB sA b_heap]; apply nth_app_end).
  assert (N : ~ is_own sB d (At (PBuf (length (b_heap s))))) by (intros (z & Z & D); rewrite (alive_same _ _ _ _ Z LB) in D; discriminate D).
  destruct (SetData_spec d (At (PBuf (length (b_heap s)))) m (firstn m cells) sB (new_obj true c) GB LB) as (sC & x & E & GC & T & LC & V & C).
  { exists cells. split; [exact Lm|]. split; [reflexivity|]. cbn [look]. rewrite (fetch_live _ _ _ Hb). reflexivity. }
  { exact N. }
  change (erase (b_heap sB) (new_obj true c)) with (new_dm c) in *. cbn [seen o_ver new_obj] in V. apply pair_equal_spec in V. destruct V as [V W].
  assert (Sd : SetCells (new_dm c) (firstn m cells) = (set_data (DeleteContentAsData (new_dm c)) (Some (firstn m cells)), 0, Ok tt)) by reflexivity.
  rewrite Sd in *. cbn [fst snd] in *.
  assert (Ax : attrs x (new_obj true c)).
  { apply (erase_attrs (b_heap sC) x (b_heap sB) (new_obj true c)); try (rewrite V; reflexivity); [exact W|exact C]. }
  pose proof (touch_gentle d sB sC _ x T GB GC LB LC eq_refl Ax) as HC.
  assert (HABC : gentle (eq d) (length (b_heap s) :: block_of x) [d] s sC).
  { refine (gentle_trans _ _ _ _ _ _ _ _ (gentle_weak _ _ _ _ _ _ _ HAB) HC). intros k z _ []. }
  apply (fresh_not no_one) in HABC; [|intros k []].
  assert (Dx : o_data x <> None).
  { intros D. assert (Q : ddata (erase (b_heap sC) x) = Some (firstn m cells)) by (rewrite V; reflexivity). cbn [erase ddata] in Q. rewrite D in Q. discriminate Q. }
  exists sC, x, (with_name x name). split; [exact E|]. split; [exact LC|]. split; [reflexivity|].
  split; [apply (gentle_attr no_one _ _ s sC d x); [exact HABC|unfold d; lia|exact LC|reflexivity|reflexivity|reflexivity]|].
  split; [unfold SetAttributeName; rewrite <- V; reflexivity|]. split; [exact C|]. split; [apply Ax|]. split.
  { unfold block_of. cbn [with_name o_data o_local]. rewrite C. cbn [new_obj o_local]. destruct (o_data x); [reflexivity|contradiction]. }
  intros k (z & Z & D). destruct (Nat.eq_dec k d) as [->|Nk].
  - rewrite (alive_same _ _ _ _ Z (alive_replaced sC d x _ LC)) in D. cbn [with_name o_data] in D. destruct (t_own _ _ _ T (length (b_heap s))) as [O|Le]; [exists x; auto|exact (N O)|].
    cbn [sB sA b_heap] in Le. rewrite app_length in Le. cbn [length] in Le. lia.
  - apply (alive_other sC d _ k z Nk) in Z. unfold alive in Z. rewrite (t_objs _ _ _ T k Nk) in Z. cbn [sB sA b_objs] in Z. apply nth_app_inv in Z. destruct Z as [Z|[X _]]; [|contradiction].
    destruct (proj1 G k z _ Z D) as (l & Hl & _). pose proof (live_lt _ _ _ Hl). lia.
Qed.
Definition known_blocks (e : benv) (f : mf) : nat := match e_fs e (cstr (ffile f)) with Bytes _ => 1 | _ => 0 end.
Lemma Load_ok e f s d : good s -> Load (e_fs e) f = Ok d -> exists s' x, b_Load e f s = (s', Ok (length (b_objs s))) /\ gentle no_one (block_of x) [length (b_objs s)] s s' /\ alive s' (length (b_objs s)) x /\
  o_local x = true /\ o_enc x = $"none" /\ erase (b_heap s') x = d /\ length (block_of x) = known_blocks e f.
Proof.
  intros G. unfold Load, b_Load, known_blocks. destruct (e_fs e (cstr (ffile f))) as [|bytes|].
  - intros E. injection E as <-. destruct (gentle_create (new_obj true CPlain) s G eq_refl) as [H|X]; [|discriminate X].
    exists (Bst (b_heap s) (b_objs s ++ [Some (new_obj true CPlain)])), (new_obj true CPlain). split; [reflexivity|]. split; [exact H|]. split; [apply nth_app_end|]. repeat split.
  - set (c := match CreateDataMeasurement (ftype f) with Some c => c | None => CPlain end).
    destruct (SetCells_bytes (new_dm c) bytes) as [S1 S2]. destruct (SetContentAsData (new_dm c) bytes) as [d1 r] eqn:Es. cbn [fst snd] in *. intros E.
    destruct (fill s (length (b_heap s)) (map Some bytes) c (length bytes) (fname f) G eq_refl) as (sC & x & y & E1 & LC & -> & H & V & C & En & Lb & NO); [rewrite map_length; lia|].
    unfold bbind at 1, alloc at 1. unfold bbind at 1, create at 1. cbn [b_objs] in *. unfold bbind at 1. rewrite E1. unfold bbind at 1. rewrite (get_alive _ _ _ LC). unfold bbind at 1, BufModel.put at 1. fold (replaced sC (length (b_objs s)) (with_name x (fname f))).
    destruct (gentle_free _ _ _ _ _ _ H NO) as [Ef H2]. unfold bbind at 1. rewrite Ef. unfold bret.
    set (s2 := Bst (update (length (b_heap s)) Freed (b_heap (replaced sC (length (b_objs s)) (with_name x (fname f))))) (b_objs (replaced sC (length (b_objs s)) (with_name x (fname f))))) in *.
    exists s2, (with_name x (fname f)). split; [reflexivity|]. split; [exact H2|]. split; [exact (alive_replaced sC _ x _ LC)|]. split; [exact C|]. split; [exact En|]. split; [|exact Lb].
    assert (Fa : firstn (length bytes) (map (@Some ascii) bytes) = map (@Some ascii) bytes) by (rewrite <- (map_length (@Some ascii) bytes); apply firstn_all).
    unfold cell in *. rewrite Fa, S1 in V. destruct r as [[]|i| | |]; try discriminate E. injection E as <-. rewrite <- V.
    unfold erase. f_equal. unfold cells_at. destruct (o_data (with_name x (fname f))) as [a|] eqn:Da; [|reflexivity].
    cbn [s2 b_heap replaced]. rewrite update_other; [reflexivity|]. intros <-. apply (NO (length (b_objs s))). exists (with_name x (fname f)). split; [exact (alive_replaced sC _ x _ LC)|exact Da].
  - discriminate.
Qed.
Lemma Load_throws e f s i : good s -> Load (e_fs e) f = Throw i -> exists s' LB LO, b_Load e f s = (s', Throw i) /\ gentle no_one LB LO s s' /\ length LB = dir_blocks e /\ length LO = dir_objs e.
Proof.
  intros G. unfold Load, b_Load, dir_blocks, dir_objs. destruct (e_fs e (cstr (ffile f))) as [|bytes|].
  - discriminate.
  - change (SetContentAsData (new_dm (match CreateDataMeasurement (ftype f) with Some c => c | None => CPlain end)) bytes) with
      (set_data (DeleteContentAsData (new_dm (match CreateDataMeasurement (ftype f) with Some c => c | None => CPlain end))) (Some (map Some bytes)), @Ok unit tt). cbn [bind]. discriminate.
  - intros E. injection E as <-. destruct (e_dir e) as [n|].
    + set (c := match CreateDataMeasurement (ftype f) with Some c => c | None => CPlain end).
      destruct (fill s (length (b_heap s)) (repeat None n) c (if eqs (firstn 4 (ftype f)) ($"text") then 0 else n) (fname f) G eq_refl) as (sC & x & y & E1 & LC & -> & H & _ & _ & _ & Lb & _).
      { rewrite repeat_length. destruct (eqs (firstn 4 (ftype f)) ($"text")); lia. }
      unfold bbind at 1, alloc at 1. unfold bbind at 1, create at 1. cbn [b_objs] in *. unfold bbind at 1. rewrite E1. unfold bbind at 1. rewrite (get_alive _ _ _ LC). unfold bbind at 1, BufModel.put at 1. fold (replaced sC (length (b_objs s)) (with_name x (fname f))).
      eexists _, _, _. split; [reflexivity|]. split; [exact H|]. split; [cbn [length]; rewrite Lb; reflexivity|reflexivity].
    + exists s, [], []. split; [reflexivity|]. split; [apply gentle_refl; exact G|]. split; reflexivity.
Qed.
Lemma Load_result fs f : (exists d, Load fs f = Ok d) \/ Load fs f = Throw ExnRuntime.
Proof.
  unfold Load. destruct (fs (cstr (ffile f))) as [|bytes|]; [left; eauto| |auto]. left.
  change (SetContentAsData (new_dm (match CreateDataMeasurement (ftype f) with Some c => c | None => CPlain end)) bytes) with
      (set_data (DeleteContentAsData (new_dm (match CreateDataMeasurement (ftype f) with Some c => c | None => CPlain end))) (Some (map Some bytes)), @Ok unit tt). cbn [bind]. eauto.
Qed.
(** blocks and objects left by a comparison with a file *)
Definition left_file (e : benv) (f : mf) (r : res bool) : nat * nat :=
  match r with
  | Ok _ => (0, 0)
  | _ => match e_fs e (cstr (ffile f)) with Unreadable => (dir_blocks e, dir_objs e) | Bytes _ => (1, 1) | Missing => (0, 1) end
  end.
Lemma Load_unreadable fs f i : Load fs f = Throw i -> fs (cstr (ffile f)) = Unreadable.
Proof.
  unfold Load. destruct (fs (cstr (ffile f))) as [|bytes|]; [discriminate| |reflexivity].
  change (SetContentAsData (new_dm (match CreateDataMeasurement (ftype f) with Some c => c | None => CPlain end)) bytes) with
      (set_data (DeleteContentAsData (new_dm (match CreateDataMeasurement (ftype f) with Some c => c | None => CPlain end))) (Some (map Some bytes)), @Ok unit tt). cbn [bind]. discriminate.
Qed.
Lemma Load_readable fs f d : Load fs f = Ok d -> fs (cstr (ffile f)) <> Unreadable.
Proof. unfold Load. intros H E. rewrite E in H. discriminate H. Qed.
Lemma FileEqual_spec e f o s x : good s -> alive s o x -> (o_local x = true -> o_enc x = $"none") ->
  let out := file_IsEqual_data (e_sc e) (e_fs e) f (erase (b_heap s) x) in
  exists s' x' LB LO, b_FileEqual e f o s = (s', snd out) /\ gentle (eq o) LB LO s s' /\ alive s' o x' /\ erase (b_heap s') x' = fst out /\ (length LB, length LO) = left_file e f (snd out).
Proof.
  intros G L Cx. cbv zeta. unfold file_IsEqual_data, b_FileEqual, bbind at 1. rewrite (get_alive _ _ _ L). change (dname (erase (b_heap s) x)) with (o_name x). change (dcls (erase (b_heap s) x)) with (o_cls x).
  destruct (negb (eqs (fname f) (o_name x)) || negb (eqs (ftype f) (type_of (o_cls x)))).
  { exists s, x, [], []. split; [reflexivity|]. split; [apply gentle_refl; exact G|]. auto. }
  unfold left_file. unfold bbind at 1. destruct (Load_result (e_fs e) f) as [[d Ld]|Ld]; rewrite Ld.
  2:{ destruct (Load_throws e f s _ G Ld) as (s1 & LB & LO & E1 & H1 & N1 & N2). rewrite E1. rewrite (Load_unreadable _ _ _ Ld). destruct (gentle_other _ _ _ _ _ o x H1 G L (fun k => k)) as [L1 V1].
      exists s1, x, LB, LO. split; [reflexivity|]. split; [revert H1; apply gentle_weak; intros k z _ []|]. cbn [fst snd]. rewrite N1, N2. auto. }
  destruct (Load_ok e f s d G Ld) as (s1 & y & E1 & H1 & Ly & Cy & Ey & Vy & Nb). rewrite E1. set (q := length (b_objs s)) in *.
  destruct (gentle_other _ _ _ _ _ o x H1 G L (fun k => k)) as [L1 V1].
  assert (N : o <> q) by (intros ->; pose proof (alive_lt _ _ _ L); lia).
  destruct (Equal_two (e_sc e) o q s1 x y (g_good _ _ _ _ _ H1) L1 Ly N Cx (fun _ => Ey)) as (s2 & x2 & y2 & E2 & H2 & L2 & L2' & V2 & V2'). rewrite V1, Vy in *.
  unfold bbind at 1. rewrite E2.
  destruct (data_IsEqual (e_sc e) (erase (b_heap s) x) d) as [[d1 d2] r] eqn:Er. cbn [fst snd] in *.
  assert (H12 : gentle (eq o) (block_of y) [q] s s2).
  { apply (gentle_weak (two o q)); [intros k z Z [->| ->]; [reflexivity|pose proof (alive_lt _ _ _ Z); unfold q in *; lia]|].
    rewrite <- (app_nil_r (block_of y)). refine (gentle_trans _ _ _ _ _ _ _ _ (gentle_weak _ _ _ _ _ _ _ H1) H2). intros k z _ []. }
  pose proof (gentle_local _ _ _ _ _ _ _ H2 (g_good _ _ _ _ _ H1) Ly L2' Cy) as Bq.
  assert (Ca : o_local y2 = true) by (destruct (g_obj _ _ _ _ _ H2 q y Ly) as (y' & L' & (_ & _ & _ & _ & _ & _ & _ & C') & _); rewrite (alive_same _ _ _ _ L2' L'); congruence).
  destruct r as [v|i| | |].
  { rewrite <- Bq in H12. destruct (gentle_destroy _ _ _ _ _ H12 L2' Ca) as (s3 & E3 & H3 & K3). unfold bbind. rewrite E3. unfold bret. destruct (K3 o x2 N L2) as [L3 V3].
    exists s3, x2, [], []. split; [reflexivity|]. split; [exact H3|]. split; [exact L3|]. split; [rewrite V3; exact V2|reflexivity]. }
  all: exists s2, x2, (block_of y), [q]; split; [reflexivity|]; split; [exact H12|]; split; [exact L2|]; split; [exact V2|]; rewrite Nb; unfold known_blocks; pose proof (Load_readable _ _ _ Ld) as Nu;
    destruct (e_fs e (cstr (ffile f))); [reflexivity|reflexivity|contradiction].
Qed.
(** of a comparison of two files *)
Definition left_files (e : benv) (f g : mf) (r : res bool) : nat * nat :=
  match r with
  | Ok _ => (0, 0)
  | _ => match e_fs e (cstr (ffile f)) with
         | Unreadable => (dir_blocks e, dir_objs e) | Bytes _ => (1 + dir_blocks e, 1 + dir_objs e) | Missing => (dir_blocks e, 1 + dir_objs e)
         end
  end.
Lemma ensure_plain sc d : denc d = $"none" -> exists d', ensure_data sc d = (d', Ok tt).
Proof. intros E. unfold ensure_data. destruct (ddata d); [eauto|]. destruct (update_attrs sc d) as (_ & _ & _ & _ & _ & _ & H). destruct (H E) as [_ U]. destruct (UpdateContentAsData sc d) as [d' r]. cbn [snd] in U. subst r. eauto. Qed.
Lemma memeq_throws i n : forall a b, memeq n a b <> Throw i.
Proof.
  induction n as [|n IH]; intros a b; [discriminate|]. cbn [memeq]. destruct a as [|[x|] a]; try discriminate. destruct b as [|[y|] b]; try discriminate.
  specialize (IH a b). destruct (memeq n a b); cbn [bind]; try discriminate. intros X. injection X as ->. apply IH. reflexivity.
Qed.
Lemma data_IsEqual_plain sc d e i : denc d = $"none" -> denc e = $"none" -> snd (data_IsEqual sc d e) <> Throw i.
Proof.
  intros Ed Ee. rewrite data_IsEqual_short. destruct (eqs (dname d) (dname e) && eqs (type_of (dcls d)) (type_of (dcls e))); [|discriminate].
  destruct (ensure_plain sc d Ed) as [d' ->], (ensure_plain sc e Ee) as [e' ->]. cbn [fst snd]. destruct (length (data_view d') =? length (data_view e')); [|discriminate].
  apply memeq_throws.
Qed.
Lemma Load_enc fs f d : Load fs f = Ok d -> denc d = $"none".
Proof.
  unfold Load. destruct (fs (cstr (ffile f))) as [|bytes|]; [intros E; injection E as <-; reflexivity| |discriminate].
  change (SetContentAsData (new_dm (match CreateDataMeasurement (ftype f) with Some c => c | None => CPlain end)) bytes) with
      (set_data (DeleteContentAsData (new_dm (match CreateDataMeasurement (ftype f) with Some c => c | None => CPlain end))) (Some (map Some bytes)), @Ok unit tt). cbn [bind]. intros E. apply (f_equal (fun r => match r with Ok x => x | _ => d end)) in E. cbv beta iota in E. rewrite <- E. reflexivity.
Qed.
Lemma FilesEqual_spec e f g s : good s ->
  let r := file_IsEqual_file (e_sc e) (e_fs e) f g in
  exists s' LB LO, b_FilesEqual e f g s = (s', r) /\ gentle no_one LB LO s s' /\ ((exists v, r = Ok v) \/ (exists i, r = Throw i) -> (length LB, length LO) = left_files e f g r).
Proof.
  intros G. cbv zeta. unfold file_IsEqual_file, b_FilesEqual.
  destruct (negb (eqs (fname f) (fname g)) || negb (eqs (ftype f) (ftype g))).
  { exists s, [], []. split; [reflexivity|]. split; [apply gentle_refl; exact G|]. reflexivity. }
  unfold left_files. unfold bbind at 1. destruct (Load_result (e_fs e) f) as [[d Ld]|Ld]; rewrite Ld; cbn [bind].
  2:{ destruct (Load_throws e f s _ G Ld) as (s1 & LB & LO & E1 & H1 & N1 & N2). rewrite E1. rewrite (Load_unreadable _ _ _ Ld). exists s1, LB, LO. rewrite N1, N2. auto. }
  destruct (Load_ok e f s d G Ld) as (s1 & y & E1 & H1 & Ly & Cy & Ey & Vy & Nb). rewrite E1. set (q := length (b_objs s)) in *.
  destruct (FileEqual_spec e g q s1 y (g_good _ _ _ _ _ H1) Ly (fun _ => Ey)) as (s2 & y2 & LB & LO & E2 & H2 & L2 & V2 & Nn). rewrite Vy in *. unfold bbind at 1. rewrite E2.
  destruct (file_IsEqual_data (e_sc e) (e_fs e) g d) as [d' r] eqn:Er. cbn [fst snd] in *.
  assert (H12 : gentle no_one (block_of y ++ LB) ([q] ++ LO) s s2).
  { apply (gentle_weak (eq q)); [intros k z Z <-; pose proof (alive_lt _ _ _ Z); unfold q in *; lia|]. refine (gentle_trans _ _ _ _ _ _ _ _ (gentle_weak _ _ _ _ _ _ _ H1) H2). intros k z _ []. }
  destruct r as [v|i| | |].
  { apply pair_equal_spec in Nn. destruct Nn as [N1 N2]. destruct LB; [|discriminate N1]. destruct LO; [|discriminate N2]. rewrite app_nil_r in H12. cbn [app] in H12.
    pose proof (gentle_local _ _ _ _ _ _ _ H2 (g_good _ _ _ _ _ H1) Ly L2 Cy) as Bq. rewrite <- Bq in H12.
    assert (Ca : o_local y2 = true) by (destruct (g_obj _ _ _ _ _ H2 q y Ly) as (y' & L' & (_ & _ & _ & _ & _ & _ & _ & C') & _); rewrite (alive_same _ _ _ _ L2 L'); congruence).
    destruct (gentle_destroy _ _ _ _ _ H12 L2 Ca) as (s3 & E3 & H3 & _). unfold bbind. rewrite E3. unfold bret. exists s3, [], []. auto. }
  all: exists s2, (block_of y ++ LB), ([q] ++ LO); split; [reflexivity|]; split; [exact H12|]; intros [[v X]|[j X]]; try discriminate X.
  (* only the second Load throws here *)
  assert (U : e_fs e (cstr (ffile g)) = Unreadable).
  { unfold file_IsEqual_data in Er. destruct (negb (eqs (fname g) (dname d)) || negb (eqs (ftype g) (type_of (dcls d)))); [discriminate Er|].
    destruct (Load_result (e_fs e) g) as [[d2 Ld2]|Ld2]; rewrite Ld2 in Er; [|exact (Load_unreadable _ _ _ Ld2)]. exfalso.
    pose proof (data_IsEqual_plain (e_sc e) d d2 i (Load_enc _ _ _ Ld) (Load_enc _ _ _ Ld2)) as Np. destruct (data_IsEqual (e_sc e) d d2) as [[a b] r]. cbn [snd] in Np. apply Np. apply pair_equal_spec in Er. apply Er. }
  unfold left_file in Nn. rewrite U in Nn. apply pair_equal_spec in Nn. destruct Nn as [N1 N2]. rewrite !app_length, N1, N2, Nb. unfold known_blocks. pose proof (Load_readable _ _ _ Ld) as Nu.
  destruct (e_fs e (cstr (ffile f))); [reflexivity|reflexivity|contradiction].
Qed.
