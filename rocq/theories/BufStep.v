(** One operation of a program. *)
From Coq Require Import Floats.SpecFloat.
From Verif Require Import Base Str B64Model MeasModel BufModel BufFacts BufActs BufGentle BufEqual BufFile BufSpec BufSteps BufOps.

Lemma bmap_run {A} (g : A -> answer) (m : B A) s s' r : m s = (s', r) -> bmap g m s = (s', answered g r).
Proof. intros E. unfold bmap, bbind. rewrite E. destruct r; reflexivity. Qed.
Lemma sound_weak (P Q : nat -> Prop) LB LO s s' : (forall k, P k -> Q k) -> sound P LB LO s s' -> sound Q LB LO s s'.
Proof. intros H S. split; try apply S.
  - intros k x L N0. apply (z_obj _ _ _ _ _ S k x L). intros X. apply N0, H, X.
  - intros k x L C. destruct (z_new _ _ _ _ _ S k x L C) as [X|X]; [left; exact X|right; exact (H k X)].
  - intros a l Hl N. apply (z_live _ _ _ _ _ S a l Hl). intros k X. apply N, H, X.
Qed.
Definition in_reach (s : bst) (p : op) : Prop := forall a, In (PBuf a) (uses p) -> a < length (b_heap s).
Definition ended (r : res answer) : Prop := (exists a, r = Ok a) \/ (exists i, r = Throw i).
Definition step_ok (e : benv) (p : op) (s s' : bst) (r : res answer) : Prop :=
  does e p s s' r /\ (ended r -> exists LB LO, sound (fun k => In k (handles p) \/ r = Ok (AObj k)) LB LO s s' /\ (length LB, length LO) = loses e s p r).
Lemma all_handles (l : list nat) (r : res answer) LB LO s s' : sound (fun k => In k l) LB LO s s' -> sound (fun k => In k l \/ r = Ok (AObj k)) LB LO s s'.
Proof. apply sound_weak. auto. Qed.
Lemma one_handle (o : nat) : forall k, o = k -> In k [o].
Proof. intros k ->. apply in_eq. Qed.
(** work on one object *)
Lemma act_step {A} (m : B A) f g o s x : acts o m f -> good s -> alive s o x -> o_local x = false -> exists s' x', bmap g m s = (s', answered g (snd (f (seen (b_heap s) x)))) /\
  sound (fun k => In k [o]) [] [] s s' /\ alive s' o x' /\ erase (b_heap s') x' = fst (fst (f (seen (b_heap s) x))).
Proof.
  intros H G L C. destruct (H s x G L) as (s1 & x1 & E & G1 & T & L1 & V & C1). exists s1, x1. split; [apply bmap_run; exact E|]. split; [apply (sound_weak (eq o)); [apply one_handle|]; apply (touch_sound o s s1 x x1); auto; congruence|]. split; [exact L1|].
  apply (f_equal fst) in V. exact V.
Qed.
Lemma attr_step o g s x g' : (forall x, o_data (g x) = o_data x /\ o_size (g x) = o_size x /\ o_local (g x) = o_local x) -> (forall h x, seen h (g x) = g' (seen h x)) -> good s -> alive s o x -> o_local x = false ->
  exists s' x', attr o g s = (s', Ok ANone) /\ sound (fun k => In k [o]) [] [] s s' /\ alive s' o x' /\ erase (b_heap s') x' = fst (g' (seen (b_heap s) x)).
Proof.
  intros A E G L C. destruct (act_step _ _ (fun _ => ANone) o s x (acts_attr o g g' A E) G L C) as (s1 & x1 & R & S & L1 & V). exists s1, x1. split; [|auto].
  revert R. unfold attr, bmap, bbind. rewrite (get_alive _ _ _ L). unfold BufModel.put. intros R. exact R.
Qed.
Lemma step e p s s' r : good s -> forallb (mine s) (handles p) = true -> in_reach s p -> perform e p s = (s', r) -> step_ok e p s s' r.
Proof.
  intros G M R.
  destruct p as [c|o|o o'|o|o t|o n|o b|o n|o n|o p n|o|o|q|o o'|f o|f g]; cbn [handles forallb] in M; try (apply andb_prop in M; destruct M as [M M']); try (apply andb_prop in M'; destruct M' as [M' _]); try (destruct (mine_alive s o M) as (x & L & C); pose proof (value_alive s o x L) as Vx); cbn [perform]; intros E.
  - (* New *) destruct (create_sound (new_obj false c) s G eq_refl eq_refl) as [S L]. unfold bmap, bbind, create in E. injection E as <- <-. split.
    + exists (length (b_objs s)). split; [reflexivity|]. split; [apply value_none; auto|]. split; [exact (alive_mine _ _ _ L eq_refl)|]. exact (value_alive _ _ _ L).
    + intros _. exists [], []. split; [|reflexivity]. revert S. apply sound_weak. intros k <-. auto.
  - (* CopyOf *) destruct (create_sound (copy_obj x) s G eq_refl eq_refl) as [S Lk]. unfold bmap, bbind, b_Copy, bbind in E. rewrite (get_alive _ _ _ L) in E. unfold create in E. injection E as <- <-. split.
    + intros d Hd. rewrite Vx in Hd. injection Hd as <-. exists (length (b_objs s)). split; [reflexivity|]. split; [apply value_none; auto|]. split; [exact (alive_mine _ _ _ Lk eq_refl)|]. split; [exact (value_alive _ _ _ Lk)|].
      destruct (z_obj _ _ _ _ _ S o x L) as [L1 V1]; [intros K; pose proof (alive_lt _ _ _ L); lia|]. rewrite (value_alive _ _ _ L1), V1. reflexivity.
    + intros _. exists [], []. split; [|reflexivity]. revert S. apply sound_weak. intros k <-. auto.
  - (* Assign *) destruct (mine_alive s o' M') as (m & L' & C'). pose proof (value_alive s o' m L') as Vm. pose proof (bmap_run none _ _ _ _ (Assign_run o o' s x m L L')) as E2. unfold none in E2. rewrite E2 in E. apply pair_equal_spec in E. destruct E as [<- <-].
    pose proof (assign_sound o s x (assigned_obj x m) G L C eq_refl C) as S. pose proof (alive_replaced s o x (assigned_obj x m) L) as Ly. split.
    + intros d md Hd Hm. rewrite Vx in Hd. rewrite Vm in Hm. injection Hd as <-. injection Hm as <-. split; [reflexivity|]. split; [rewrite (value_alive _ _ _ Ly); reflexivity|].
      intros N. destruct (z_obj _ _ _ _ _ S o' m L' (fun k => N (eq_sym k))) as [L1 V1]. rewrite (value_alive _ _ _ L1), V1. reflexivity.
    + intros _. exists (its_block x), []. split; [apply all_handles; revert S; apply sound_weak; intros k <-; left; reflexivity|]. cbn [loses]. rewrite Vx. unfold its_block. cbn [erase ddata].
      destruct (o_data x) as [a|] eqn:D; [|reflexivity]. destruct (proj1 G o x a L D) as (l & Hl & _). rewrite (cells_live _ _ _ Hl). reflexivity.
  - (* Destroy *) destruct (destroy_sound o s x G L C) as (s1 & E1 & S & V & _). pose proof (bmap_run none _ _ _ _ E1) as E2. unfold none in E2. rewrite E2 in E. apply pair_equal_spec in E. destruct E as [<- <-]. split.
    + split; [reflexivity|exact V].
    + intros _. exists [], []. split; [apply all_handles; revert S; apply sound_weak; apply one_handle|reflexivity].
  - (* SetText *) destruct (act_step _ _ (fun _ => ANone) o s x (acts_SetContent o t) G L C) as (s1 & x1 & E1 & S & L1 & V). rewrite E1 in E. apply pair_equal_spec in E. destruct E as [<- <-]. split.
    + intros d Hd. rewrite Vx in Hd. injection Hd as <-. split; [reflexivity|]. rewrite (value_alive _ _ _ L1), V. reflexivity.
    + intros _. exists [], []. split; [apply all_handles; exact S|reflexivity].
  - (* SetName *) destruct (attr_step o (fun x => with_name x n) s x (fun d => (SetAttributeName (fst d) n, snd d)) ltac:(intros; repeat split) ltac:(reflexivity) G L C) as (s1 & x1 & E1 & S & L1 & V). rewrite E1 in E. apply pair_equal_spec in E. destruct E as [<- <-]. split.
    + intros d Hd. rewrite Vx in Hd. injection Hd as <-. split; [reflexivity|]. rewrite (value_alive _ _ _ L1), V. reflexivity.
    + intros _. exists [], []. split; [apply all_handles; exact S|reflexivity].
  - (* SetEscape *) destruct (attr_step o (fun x => with_esc x b) s x (fun d => (Dm (dname (fst d)) b (dcls (fst d)) (denc (fst d)) (dcomp (fst d)) (dcontent (fst d)) (ddata (fst d)), snd d)) ltac:(intros; repeat split) ltac:(reflexivity) G L C) as (s1 & x1 & E1 & S & L1 & V). rewrite E1 in E. apply pair_equal_spec in E. destruct E as [<- <-]. split.
    + intros d Hd. rewrite Vx in Hd. injection Hd as <-. split; [reflexivity|]. rewrite (value_alive _ _ _ L1), V. reflexivity.
    + intros _. exists [], []. split; [apply all_handles; exact S|reflexivity].
  - (* SetEncoding *) destruct (attr_step o (fun x => with_enc x n) s x (fun d => (SetAttributeEncoding (fst d) n, snd d)) ltac:(intros; repeat split) ltac:(reflexivity) G L C) as (s1 & x1 & E1 & S & L1 & V). rewrite E1 in E. apply pair_equal_spec in E. destruct E as [<- <-]. split.
    + intros d Hd. rewrite Vx in Hd. injection Hd as <-. split; [reflexivity|]. rewrite (value_alive _ _ _ L1), V. reflexivity.
    + intros _. exists [], []. split; [apply all_handles; exact S|reflexivity].
  - (* SetCompression *) destruct (attr_step o (fun x => with_comp x n) s x (fun d => (SetAttributeCompression (fst d) n, snd d)) ltac:(intros; repeat split) ltac:(reflexivity) G L C) as (s1 & x1 & E1 & S & L1 & V). rewrite E1 in E. apply pair_equal_spec in E. destruct E as [<- <-]. split.
    + intros d Hd. rewrite Vx in Hd. injection Hd as <-. split; [reflexivity|]. rewrite (value_alive _ _ _ L1), V. reflexivity.
    + intros _. exists [], []. split; [apply all_handles; exact S|reflexivity].
  - (* SetData *)
    assert (Go : forall cells, source_of s p n cells -> ~ is_own s o p -> exists x1, r = answered none (snd (SetCells (erase (b_heap s) x) cells)) /\ sound (fun k => In k [o]) [] [] s s' /\ alive s' o x1 /\ erase (b_heap s') x1 = fst (fst (SetCells (erase (b_heap s) x) cells))).
    { intros cells Src N. destruct (SetData_spec o p n cells s x G L Src N) as (s1 & x1 & E1 & G1 & T & L1 & V & C1). pose proof (bmap_run none _ _ _ _ E1) as E2. unfold none at 1 in E2. rewrite E2 in E. apply pair_equal_spec in E. destruct E as [<- <-].
      exists x1. split; [reflexivity|]. split; [apply (sound_weak (eq o)); [apply one_handle|]; apply (touch_sound o s s1 x x1); auto; congruence|]. split; [exact L1|]. apply (f_equal fst) in V. exact V. }
    split.
    + intros d bytes Hd Hg. rewrite Vx in Hd. injection Hd as <-. destruct (Go (map Some bytes)) as (x1 & Er & _ & L1 & V).
      * destruct p as [b|q]; cbn [given] in Hg.
        -- destruct Hg as [Ln ->]. exists (map Some b). split; [rewrite map_length; exact Ln|]. split; [rewrite firstn_map; reflexivity|reflexivity].
        -- destruct Hg as (_ & l & Pl & Ln & El). exists l. split; [exact Ln|]. split; [exact El|]. unfold points in Pl. rewrite Pl. reflexivity.
      * destruct p as [b|[a|k v]]; cbn [is_own]; [intros []| |intros []]. destruct Hg as (N & _). intros (y & Y & D). apply (N a eq_refl). apply buffer_owned. exists x. rewrite (alive_same _ _ _ _ Y L) in D. auto.
      * destruct (SetCells_bytes (erase (b_heap s) x) bytes) as [S1 S2]. unfold cell in *. rewrite S2 in Er. rewrite S1 in V. split; [exact Er|]. rewrite (value_alive _ _ _ L1), V. reflexivity.
    + intros X. destruct (SetData_defined o p n s x G L) as (cells & Src & N).
      * destruct p as [b|[a|k v]]; cbn [in_range]; auto. apply R. cbn [uses]. apply in_eq.
      * intros U. destruct (b_SetData o p n s) as [s2 r2] eqn:E2. cbn [snd] in U. subst r2. rewrite (bmap_run _ _ _ _ _ E2) in E. apply pair_equal_spec in E. destruct E as [_ <-]. destruct X as [[a X]|[i X]]; discriminate X.
      * destruct (Go cells Src N) as (x1 & _ & S & _). exists [], []. split; [apply all_handles; exact S|reflexivity].
  - (* GetData *) destruct (Data_gentle (e_sc e) o s x G L) as (s1 & x1 & E1 & H & L1 & _ & V); [congruence|]. rewrite (bmap_run _ _ _ _ _ E1) in E. apply pair_equal_spec in E. destruct E as [<- <-]. split.
    + intros d Hd. rewrite Vx in Hd. injection Hd as <-. unfold GetContentAsData. destruct (ensure_data (e_sc e) (erase (b_heap s) x)) as [d' r']. cbn [fst snd] in *. rewrite (value_alive _ _ _ L1), V. split; [reflexivity|].
      destruct r' as [[]|i| | |]; cbn [bind]; try reflexivity. exists (ptr_of o x1). split; [reflexivity|]. pose proof (look_ptr s1 o x1 (g_good _ _ _ _ _ H) L1) as Q. rewrite V in Q. unfold ending in Q.
      destruct (o_data x1); [left; rewrite app_nil_r in Q; exact Q|right; exact Q].
    + intros _. exists [], []. split; [|reflexivity]. apply all_handles. apply (sound_weak (eq o)); [apply one_handle|]. apply gentle_sound; [exact G|exact H].
  - (* GetSize *) destruct (Size_gentle (e_sc e) o s x G L) as (s1 & x1 & E1 & H & L1 & _ & V); [congruence|]. rewrite (bmap_run _ _ _ _ _ E1) in E. apply pair_equal_spec in E. destruct E as [<- <-]. split.
    + intros d Hd. rewrite Vx in Hd. injection Hd as <-. split; [reflexivity|]. rewrite (value_alive _ _ _ L1), V. unfold GetContentAsDataSize. destruct (ensure_data (e_sc e) (erase (b_heap s) x)); reflexivity.
    + intros _. exists [], []. split; [|reflexivity]. apply all_handles. apply (sound_weak (eq o)); [apply one_handle|]. apply gentle_sound; [exact G|exact H].
  - (* ReadAt *) assert (s' = s) as ->.
    { pose proof (look_state q s) as Q. destruct (look q s) as [s1 r1] eqn:E1. cbn [fst] in Q. rewrite (bmap_run _ _ _ _ _ E1) in E. apply pair_equal_spec in E. destruct E as [<- _]. exact Q. }
    split.
    + split; [reflexivity|]. intros l P. rewrite (bmap_run _ _ _ _ _ P) in E. apply pair_equal_spec in E. destruct E as [_ <-]. reflexivity.
    + intros _. exists [], []. split; [|reflexivity]. apply all_handles. apply gentle_sound; [exact G|]. apply gentle_refl. exact G.
  - (* EqualTo *) destruct (mine_alive s o' M') as (y & L' & C'). pose proof (value_alive s o' y L') as Vy. destruct (Nat.eq_dec o o') as [<-|N].
    + destruct (Equal_self (e_sc e) o s x G L) as (s1 & x1 & E1 & H & L1 & V); [congruence|]. rewrite (bmap_run _ _ _ _ _ E1) in E. apply pair_equal_spec in E. destruct E as [<- <-]. split.
      * intros d m Hd Hm. rewrite Vx in Hd, Hm. injection Hd as <-. injection Hm as <-. destruct (data_IsEqual (e_sc e) (erase (b_heap s) x) (erase (b_heap s) x)) as [[d1 m1] v]. cbn [fst snd] in *. split; [reflexivity|]. rewrite (value_alive _ _ _ L1), V. split; [reflexivity|]. intros X. contradiction.
      * intros _. exists [], []. split; [|reflexivity]. apply all_handles. apply (sound_weak (eq o)); [intros k <-; apply in_eq|]. apply gentle_sound; [exact G|exact H].
    + destruct (Equal_two (e_sc e) o o' s x y G L L' N) as (s1 & x1 & y1 & E1 & H & L1 & L1' & V & V'); [congruence|congruence|]. rewrite (bmap_run _ _ _ _ _ E1) in E. apply pair_equal_spec in E. destruct E as [<- <-]. split.
      * intros d m Hd Hm. rewrite Vx in Hd. rewrite Vy in Hm. injection Hd as <-. injection Hm as <-. destruct (data_IsEqual (e_sc e) (erase (b_heap s) x) (erase (b_heap s) y)) as [[d1 m1] v]. cbn [fst snd] in *. split; [reflexivity|]. rewrite (value_alive _ _ _ L1), V. split; [reflexivity|]. intros _. rewrite (value_alive _ _ _ L1'), V'. reflexivity.
      * intros _. exists [], []. split; [|reflexivity]. apply all_handles. apply (sound_weak (two o o')); [intros k [->| ->]; [left|right; left]; reflexivity|]. apply gentle_sound; [exact G|exact H].
  - (* FileEqual *) destruct (FileEqual_spec e f o s x G L) as (s1 & x1 & LB & LO & E1 & H & L1 & V & Nn); [congruence|]. rewrite (bmap_run _ _ _ _ _ E1) in E. apply pair_equal_spec in E. destruct E as [<- <-]. split.
    + intros d Hd. rewrite Vx in Hd. injection Hd as <-. destruct (file_IsEqual_data (e_sc e) (e_fs e) f (erase (b_heap s) x)) as [d1 v]. cbn [fst snd] in *. split; [reflexivity|]. rewrite (value_alive _ _ _ L1), V. reflexivity.
    + intros X. exists LB, LO. split; [apply all_handles; apply (sound_weak (eq o)); [apply one_handle|]; apply gentle_sound; [exact G|exact H]|]. rewrite Nn. cbn [loses]. unfold left_file, of_file, of_directory, dir_blocks, dir_objs.
      destruct (snd (file_IsEqual_data (e_sc e) (e_fs e) f (erase (b_heap s) x))) as [v|i| | |]; cbn [answered raised]; try reflexivity; try (destruct X as [[? X]|[? X]]; discriminate X). destruct (e_fs e (cstr (ffile f))); try reflexivity. destruct (e_dir e); reflexivity.
  - (* FilesEqual *) destruct (FilesEqual_spec e f g s G) as (s1 & LB & LO & E1 & H & Nn). rewrite (bmap_run _ _ _ _ _ E1) in E. apply pair_equal_spec in E. destruct E as [<- <-]. split.
    + reflexivity.
    + intros X. exists LB, LO. split; [apply all_handles; apply (sound_weak no_one); [intros k []|]; apply gentle_sound; [exact G|exact H]|]. cbn [loses]. unfold left_files, of_file, of_directory, dir_blocks, dir_objs in *.
      destruct (file_IsEqual_file (e_sc e) (e_fs e) f g) as [v|i| | |]; cbn [answered raised]; try (destruct X as [[? X]|[? X]]; discriminate X); rewrite Nn by eauto; [reflexivity|].
      destruct (e_fs e (cstr (ffile f))); destruct (e_dir e); reflexivity.
Qed.
