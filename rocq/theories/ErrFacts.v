(** Facts about the messages of ErrModel. *)
From Coq Require Import Floats.SpecFloat.
From Verif Require Import Base Str Dec PathModel MeasModel DiffModel VisitModel XmlModel ReadModel RegModel RegFacts RegStart ErrModel.

(** * Without the messages it is the driver of RegModel; messages are only added, and none of them about an exception *)
Definition unexceptional (l : list msg) : Prop := forall w x, ~ In (Caught w x) l.
Lemma unexceptional_app a b : unexceptional a -> unexceptional b -> unexceptional (a ++ b).
Proof. intros A B w x I. apply in_app_or in I. destruct I as [I|I]; [exact (A w x I)|exact (B w x I)]. Qed.
Lemma unexceptional_nil : unexceptional []. Proof. intros w x []. Qed.
Record follows {A} (m : X A) (b : M A) : Prop := {
  fo_base : forall x, b (x_s x) = (x_s (fst (m x)), snd (m x));
  fo_says : forall x, exists l, x_err (fst (m x)) = x_err x ++ l /\ unexceptional l }.
Lemma follows_bind {A B} (m : X A) (b : M A) (k : A -> X B) (c : A -> M B) : follows m b -> (forall a, follows (k a) (c a)) -> follows (xbind m k) (mbind b c).
Proof.
  intros [Hb Hs] Hk. constructor; intros x; unfold xbind, mbind.
  - rewrite (Hb x). destruct (m x) as [x' r]. cbn [fst snd]. destruct r as [a| | | |]; try reflexivity. apply Hk.
  - destruct (Hs x) as (l & E & U). destruct (m x) as [x' r]. cbn [fst snd] in *. destruct r as [a| | | |]; cbn [fst]; eauto.
    destruct (fo_says _ _ (Hk a) x') as (l' & E' & U'). exists (l ++ l'). split; [rewrite E', E, app_assoc; reflexivity|apply unexceptional_app; assumption].
Qed.
Lemma follows_quiet {A} (m : M A) : follows (quiet m) m.
Proof. constructor; intros x; unfold quiet; destruct (m (x_s x)) as [s r]; [reflexivity|]. exists []. split; [cbn; rewrite app_nil_r; reflexivity|apply unexceptional_nil]. Qed.
Lemma follows_throwing {A} w (m : M A) : follows (throwing w m) m.
Proof. constructor; intros x; unfold throwing; destruct (m (x_s x)) as [s r]; [reflexivity|]. exists []. split; [cbn; rewrite app_nil_r; reflexivity|apply unexceptional_nil]. Qed.
Lemma follows_ret {A} (a : A) : follows (xret a) (mret a).
Proof. constructor; intros x; [reflexivity|]. exists []. split; [cbn; rewrite app_nil_r; reflexivity|apply unexceptional_nil]. Qed.
Lemma follows_say {B} f (k : unit -> X B) (b : M B) : (forall s, unexceptional (f s)) -> (forall u, follows (k u) b) -> follows (xbind (say f) k) b.
Proof.
  intros Hf Hk. constructor; intros x; unfold xbind, say; cbv iota beta.
  - apply (fo_base _ _ (Hk tt) (Xst (x_s x) (x_err x ++ f (x_s x)) (x_what x))).
  - destruct (fo_says _ _ (Hk tt) (Xst (x_s x) (x_err x ++ f (x_s x)) (x_what x))) as (l & E & U). exists (f (x_s x) ++ l). split; [rewrite E, app_assoc; reflexivity|apply unexceptional_app; auto].
Qed.
Lemma follows_ext {A} (m m' : X A) (b b' : M A) : (forall x, m x = m' x) -> (forall s, b s = b' s) -> follows m b -> follows m' b'.
Proof. intros E E' [Hb Hs]. constructor; intros x; rewrite <- E, <- ?E'; [apply Hb|apply Hs]. Qed.

Ltac fol := repeat first [apply follows_bind; [|intros ?] | apply follows_quiet | apply follows_throwing | apply follows_ret].
Lemma says_one_un m : (forall w x, m <> Caught w x) -> unexceptional [m].
Proof. intros H w x [E|[]]. exact (H w x E). Qed.

Lemma follows_parse e : forall fuel argc argv inf outf, follows (x_parse_loop e fuel argc argv inf outf) (parse_loop e fuel argc argv inf outf).
Proof.
  induction fuel as [|fuel IH]; intros argc argv inf outf.
  { constructor; intros x; [reflexivity|]. exists []. split; [cbn; rewrite app_nil_r; reflexivity|apply unexceptional_nil]. }
  cbn [x_parse_loop parse_loop].
  destruct (argc <=? 1).
  { apply (follows_ret (argc, argv, inf, outf)). }
  match goal with |- follows (fun x => ?f x) (fun s => ?g s) => change (follows f g) end.
  apply follows_bind; [apply follows_quiet|]. intros a. cbv zeta.
  destruct (eqs a ($"-O")).
  { destruct (2 <? argc); [|apply IH]. apply follows_bind; [apply follows_quiet|]. intros v. apply follows_bind; [apply follows_quiet|]. intros ok.
    apply follows_say; [intros s; destruct ok; [apply unexceptional_nil|apply says_one_un; discriminate]|]. intros _. fol. apply IH. }
  destruct (eqs a ($"-I")).
  { destruct (2 <? argc); [|apply IH]. fol. destruct a1; [fol; apply IH|apply follows_throwing]. }
  destruct (eqs a ($"-R")).
  { destruct (2 <? argc); [|apply IH]. fol. apply IH. }
  destruct (eqs a ($"-P")).
  { destruct (2 <? argc); [|apply IH]. fol. destruct a1; [fol; apply IH|apply follows_throwing]. }
  apply follows_ret.
Qed.
Lemma follows_Parse e fuel argv : follows (x_Parse e fuel argv) (ParseAndRemoveArguments e fuel argv).
Proof. apply follows_bind; [apply follows_parse|]. intros [[[argc argv'] inf] outf]. fol. Qed.

(** messages of the parts *)
Ltac un := repeat first [apply unexceptional_nil | apply unexceptional_app | (apply says_one_un; discriminate) | assumption | match goal with |- unexceptional (if ?b then _ else _) => destruct b | |- unexceptional (match ?x with _ => _ end) => destruct x end].
Lemma un_start d el al : unexceptional (start_says d el al).
Proof.
  assert (A : unexceptional (type_says al)) by (induction al as [|[k v] al IH]; cbn [type_says]; un).
  assert (B : unexceptional (attrs_say al)) by (clear A; induction al as [|[k v] al IH]; cbn [attrs_say]; un).
  assert (C : unexceptional (file_attrs_say al)) by (clear A B; induction al as [|[k v] al IH]; cbn [file_attrs_say]; un).
  unfold start_says. un.
Qed.
Lemma un_events asserts : forall evs p, unexceptional (events_say asserts p evs).
Proof.
  induction evs as [|ev evs IH]; intros p; cbn [events_say]; un. 2:apply IH. unfold event_says. destruct ev; [apply un_start|un|un].
Qed.
Lemma un_read asserts ext file : unexceptional (read_says asserts ext file).
Proof. unfold read_says. destruct (buffers _ _ _); un; apply un_events. Qed.
Lemma un_ensure sc d : unexceptional (ensure_says sc d).
Proof. unfold ensure_says, update_says. un. Qed.
Lemma un_data sc a b : unexceptional (data_equal_says sc a b).
Proof.
  unfold data_equal_says. destruct (_ && _); [|un]. apply unexceptional_app; [apply un_ensure|]. destruct (GetContentAsDataSize sc a) as [a' r]. destruct r; un; apply un_ensure.
Qed.
Lemma un_load dir fs f : unexceptional (load_says dir fs f).
Proof. unfold load_says. un. Qed.
Lemma un_file_data dir sc fs f d : unexceptional (file_data_says dir sc fs f d).
Proof. unfold file_data_says. un; [apply un_load|apply un_data]. Qed.
Lemma un_compare dir sc fs c b m : unexceptional (compare_says dir sc fs c b m).
Proof.
  assert (E : unexceptional (equal_says dir sc fs b m)).
  { unfold equal_says. destruct b as [d|g], m as [d'|g']; try apply un_file_data; [apply un_data|]. unfold file_file_says. un; [apply un_load|apply un_file_data]. }
  unfold compare_says. un.
Qed.
Lemma follows_read_input e : follows (x_read_input e) (read_input e).
Proof. apply follows_say; [|intros _; apply follows_throwing]. intros s. destruct (s_is s); un. apply un_read. Qed.
Lemma follows_Begin e : follows (x_Begin e) (BeginMeasurement e).
Proof. unfold x_Begin, BeginMeasurement. fol. destruct a1; [apply follows_read_input|fol]. Qed.
Lemma follows_Compare dir e m t : follows (x_Compare dir e m t) (CompareMeasurement e m t).
Proof.
  apply follows_bind; [apply follows_quiet|]. intros [|b rest]; [fol|]. apply follows_bind; [apply follows_quiet|]. intros ?. destruct (_ && _); [|fol].
  apply follows_bind; [apply follows_quiet|]. intros b'. apply follows_say; [intros s; apply un_compare|]. intros _. apply follows_bind; [apply follows_quiet|]. intros [[b1 m1] v].
  apply follows_bind; [apply follows_quiet|]. intros [|]; fol.
Qed.
Lemma follows_Measure dir e c : follows (x_Measure dir e c) (Measure e c).
Proof. apply follows_bind; [apply follows_quiet|]. intros [|]; [apply follows_Compare|fol]. Qed.
Lemma follows_run dir e p : follows (x_run dir e p) (run e p).
Proof.
  induction p as [z|x|c k IH|t k IH|z k IH|path b k IH]; cbn [x_run run]; try (apply follows_bind; [apply follows_quiet|intros _; exact IH]).
  - apply follows_ret.
  - apply follows_quiet.
  - apply follows_bind; [apply follows_Measure|exact IH].
Qed.
Lemma follows_body dir e test argv : follows (x_body dir e test argv) (main_body e test argv).
Proof. apply follows_bind; [apply follows_Parse|]. intros [argc argv']. apply follows_bind; [apply follows_Begin|]. intros _. apply follows_run. Qed.
Lemma follows_Main dir e test argv x : Main e test argv (x_s x) = (x_s (fst (x_Main dir e test argv x)), snd (x_Main dir e test argv x)).
Proof.
  unfold Main, x_Main. cbv zeta. set (x1 := Xst (set_unmatched (x_s x) (s_unmatched (x_s x) + 1)) (x_err x) None). change (set_unmatched (x_s x) (s_unmatched (x_s x) + 1)) with (x_s x1).
  rewrite (fo_base _ _ (follows_body dir e test argv) x1). destruct (x_body dir e test argv x1) as [x2 r]. cbn [fst snd]. destruct r as [ret| | | |]; try reflexivity.
  - rewrite (fo_base _ _ (follows_quiet (EndMeasurement e)) x2). destruct (quiet (EndMeasurement e) x2) as [x3 r]. cbn [fst snd]. destruct r as [u| | | |]; try reflexivity.
    + cbn [x_s]. destruct (negb _); reflexivity.
    + unfold report. cbn [x_s]. destruct (negb _); reflexivity.
  - unfold report. cbn [x_s]. destruct (negb _); reflexivity.
Qed.
