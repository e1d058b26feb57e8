(** C85: tfPipeToXML as a whole: what it says, what it allocates.  [pipe_run]: PipeModel; C52 is about its status, its documents and its screen. *)
From Coq Require Import Floats.SpecFloat.
From Verif Require Import Base Str Dec B64Model PathModel PathFacts MeasModel MeasFacts DiffModel VisitModel XmlText XmlModel ReadModel ReadFacts ReadBack ReadProps ElemProps RegModel ArgFacts ArgProps RegSpec RegFacts RegStart RegMain RegProps RegProps2 RegRound RegProps3 HeapFacts HeapXml ErrReader ErrRun ImgModel ItkModel ItkSpec ItkSim ItkRun ItkMain ItkRunProps ErrProps ItkArgProps ReuseProps CasesRead ErrModel ErrFacts ErrSpec ItkErrModel ItkErrFacts ItkErrSpec ItkErrRun ItkErrProps ReportProps ItkPipeProps PipeModel PipeFacts.

(** * The program of C52 *)
Definition child_of (q : process) : child := Child (pr_chunks q) (match pr_fate q with Some (Exit v) => Exited v | _ => Otherwise end).
(** the test with its messages *)
Definition x_pipe (dir : bool) (e : env) (q : process) (fa : fate) (rest : list str) : X Z :=
  _ <! quiet (ItkModel.say (heading rest)) ;; _ <! x_Measure dir e (TextPlain (drain (pr_chunks q) []) ($"stdout")) ;; _ <! ErrModel.say (fun _ => fate_says fa) ;; xret (value_of fa).
Lemma un_fate fa : unexceptional (fate_says fa).
Proof. destruct fa; first [apply unexceptional_nil|apply says_one_un; discriminate]. Qed.
Lemma follows_pipe dir ie argv launch q fa a0 rest : q = launch rest -> pr_fate q = Some fa ->
  ErrFacts.follows (x_pipe dir (i_env ie) q fa rest) (irun ie argv (tfPipeToXML (fun l => child_of (launch l)) (a0 :: rest)) no_tolerance 0%Z).
Proof.
  intros -> Hf. unfold tfPipeToXML. cbn [tl irun child_of ch_chunks ch_end]. rewrite Hf. apply follows_bind; [apply follows_quiet|]. intros _.
  apply follows_bind.
  - apply (follows_ext (x_Measure dir (i_env ie) (TextPlain (drain (pr_chunks (launch rest)) []) ($"stdout"))) _ (Measure (i_env ie) (TextPlain (drain (pr_chunks (launch rest)) []) ($"stdout")))); [reflexivity|intros s; symmetry; apply itk_measure_base|apply follows_Measure].
  - intros _. apply follows_say; [intros _; apply un_fate|]. intros _. destruct fa; apply follows_ret.
Qed.

Lemma x_pipe_eq dir e q fa rest x : x_pipe dir e q fa rest x =
  match x_Measure dir e (TextPlain (drain (pr_chunks q) []) ($"stdout")) (out (heading rest) x) with
  | (x1, Ok _) => (Xst (x_s x1) (x_err x1 ++ fate_says fa) (x_what x1), Ok (value_of fa))
  | (x1, Throw i) => (x1, Throw i) | (x1, UB) => (x1, UB) | (x1, Abort) => (x1, Abort) | (x1, Hang) => (x1, Hang)
  end.
Proof.
  unfold x_pipe. unfold xbind at 1. change (quiet (ItkModel.say (heading rest)) x) with (out (heading rest) x, @Ok unit tt). cbv iota beta.
  generalize (out (heading rest) x). intros y. generalize (x_Measure dir e (TextPlain (drain (pr_chunks q) []) ($"stdout"))). intros m.
  unfold xbind. destruct (m y) as [x1 [z|i| | |]]; reflexivity.
Qed.

Section Run.
Variables (launch : list str -> process) (dir : bool) (ie : ienv) (f : store) (a0 : str) (opts : list (str * str)) (rest : list str).
Local Notation e := (i_env ie).
Local Notation argv := (a0 :: flat opts ++ rest).
Local Notation x0 := (Xst (set_unmatched (fresh f []) 1) [] None).
Local Notation l0 := (Xst (launched_in e f [] opts) (refusals e f opts) None).
Lemma p_begin : command_line e f opts rest -> p_body launch dir e argv (Pst x0 0 []) =
  match x_Begin e l0 with
  | (x1, Ok _) => p_Test launch dir e (a0 :: rest) (Pst x1 0 [])
  | (x1, Throw i) => (Pst x1 0 [], Throw i) | (x1, UB) => (Pst x1 0 [], UB) | (x1, Abort) => (Pst x1 0 [], Abort) | (x1, Hang) => (Pst x1 0 [], Hang)
  end.
Proof.
  intros Hc. destruct (x_launch_in e f [] a0 opts rest None Hc) as (argc & argv' & E & F). unfold p_body. unfold pbind at 1, lift at 1. cbn [p_x p_next p_mem]. rewrite E. cbv iota beta.
  rewrite F. unfold pbind, lift. cbn [p_x p_next p_mem]. destruct (x_Begin e l0) as [x1 [u|i| | |]]; reflexivity.
Qed.
(** what is alive in the end *)
Definition command_array : nat * block := (0, Array (map (fun s => Some (Some s)) rest ++ [Some None])).
Definition process_object (fa : fate) : nat * block := (1, Proc (Some rest) (Some (Process [] (Some fa)))).
Lemma p_body_eq fa : command_line e f opts rest -> pr_fate (launch rest) = Some fa ->
  let xr := x_body_with e (fun _ => x_pipe dir e (launch rest) fa rest) argv x0 in let pr := p_body launch dir e argv (Pst x0 0 []) in
  p_x (fst pr) = fst xr /\ snd pr = snd xr /\
  p_mem (fst pr) = match snd (x_Begin e l0) with Ok _ => match snd xr with Ok _ => [command_array] | _ => [process_object fa; command_array] end | _ => [] end.
Proof.
  intros Hc Hf. cbv zeta. rewrite (p_begin Hc), (x_with_launch e (fun _ => x_pipe dir e (launch rest) fa rest) f [] a0 opts rest None Hc). unfold xbind at 1 2 3.
  destruct (x_Begin e l0) as [x1 [u|i| | |]]; try (split; [|split]; reflexivity).
  pose proof (test_eq launch dir e a0 rest x1 0 [] (Forall_nil _)) as T. cbv zeta in T. rewrite Hf in T. rewrite T. clear T. rewrite x_pipe_eq.
  destruct (x_Measure dir e _ (out (heading rest) x1)) as [x2 [z|i| | |]]; split; [|split| |split| |split| |split| |split]; reflexivity.
Qed.
Lemma p_Main_eq : let p := Pst (Xst (new_test f) [] None) 0 [] in let pb := p_body launch dir e argv (Pst x0 0 []) in
  forall xb, x_body_with e xb argv x0 = (p_x (fst pb), snd pb) -> x_Main_with e xb argv (Xst (new_test f) [] None) = (p_x (fst (p_Main launch dir e argv p)), snd (p_Main launch dir e argv p)) /\
  p_mem (fst (p_Main launch dir e argv p)) = p_mem (fst pb).
Proof.
  cbv zeta. intros xb E. unfold x_Main_with, p_Main. cbn [p_x p_next p_mem x_s x_err]. change (Xst (set_unmatched (new_test f) (s_unmatched (new_test f) + 1)) [] None) with x0. rewrite E.
  destruct (p_body launch dir e argv (Pst x0 0 [])) as [pb [ret|i| | |]]; cbn [fst snd]; try (split; reflexivity).
  - destruct (quiet (EndMeasurement e) (p_x pb)) as [x2 [u|i| | |]]; try (split; reflexivity); cbv zeta; destruct (negb _); split; reflexivity.
  - cbv zeta. destruct (negb _); split; reflexivity.
Qed.
End Run.

(** Whatever the library gives, as long as the child closes its streams: status, files and screen are those of C52. *)
Theorem C85_same_program : forall launch dir ie f a0 opts rest fa, let argv := a0 :: flat opts ++ rest in let run := pipe_run launch dir (i_env ie) f argv in
  command_line (i_env ie) f opts rest -> pr_fate (launch rest) = Some fa ->
  pipe_Main ie (fun l => child_of (launch l)) argv (new_test f) = (x_s (p_x (fst run)), snd run).
Proof.
  intros launch dir ie f a0 opts rest fa argv run Hc Hf.
  destruct (p_body_eq launch dir ie f a0 opts rest fa Hc Hf) as (B1 & B2 & _).
  destruct (p_Main_eq launch dir ie f a0 opts rest (fun _ => x_pipe dir (i_env ie) (launch rest) fa rest)) as [E _]; [rewrite B1, B2; apply surjective_pairing|].
  unfold pipe_Main. rewrite <- fresh_nil.
  etransitivity; [exact (launch_eq (i_env ie) (fun args => irun ie argv (tfPipeToXML (fun l => child_of (launch l)) args) no_tolerance 0%Z) (fun _ => irun ie argv (tfPipeToXML (fun l => child_of (launch l)) (a0 :: rest)) no_tolerance 0%Z) f [] a0 opts rest Hc eq_refl)|].
  change (fresh f []) with (x_s (Xst (new_test f) [] None)).
  rewrite (follows_Main_with (i_env ie) (fun _ => x_pipe dir (i_env ie) (launch rest) fa rest) _ argv _ (fun _ => follows_pipe dir ie argv launch (launch rest) fa a0 rest eq_refl Hf)).
  fold argv in E. rewrite E. reflexivity.
Qed.
Print Assumptions C85_same_program.


(** * Messages and memory *)
Definition pipe_says (launch : list str -> process) (dir : bool) (e : env) (f : store) (argv : list str) : list msg := x_err (p_x (fst (pipe_run launch dir e f argv))).
Definition pipe_left (launch : list str -> process) (dir : bool) (e : env) (f : store) (argv : list str) : list (nat * block) := p_mem (fst (pipe_run launch dir e f argv)).
(** the array of the command, ended by the null pointer, and the process object after the child's end *)
Definition the_array (rest : list str) : block := Array (map (fun s => Some (Some s)) rest ++ [Some None]).
(** what is said about the child's end *)
Definition farewell (fa : fate) : list msg :=
  match fa with
  | Exit _ => []
  | Killed => [Written ($"Child was killed by parent." ++ [nl])]
  | Exception t => [Written ($"Child terminated abnormally: " ++ t ++ [nl])]
  | Error t => [Written ($"Error in administrating child process: [" ++ t ++ $"]" ++ [nl])]
  | Expired => [Written ($"Child was killed when timeout expired." ++ [nl])]
  | Starting => [Written ($"No process has been executed." ++ [nl])]
  | Executing => [Written ($"The process is still executing." ++ [nl])]
  | Disowned => [Written ($"Child was disowned." ++ [nl])]
  end.
Lemma told_end fa : fate_says fa = farewell fa.
Proof. destruct fa; unfold fate_says, farewell; rewrite <- ?app_assoc; reflexivity. Qed.
Definition the_process (rest : list str) (fa : fate) : block := Proc (Some rest) (Some (Process [] (Some fa))).
Section Ends.
Variables (launch : list str -> process) (dir : bool) (ie : ienv) (f : store) (a0 : str) (opts : list (str * str)) (rest : list str).
Local Notation e := (i_env ie).
Local Notation argv := (a0 :: flat opts ++ rest).
Local Notation x0 := (Xst (set_unmatched (fresh f []) 1) [] None).
Local Notation l0 := (Xst (launched_in e f [] opts) (refusals e f opts) None).
Lemma ends xb : x_body_with e xb argv x0 = (p_x (fst (p_body launch dir e argv (Pst x0 0 []))), snd (p_body launch dir e argv (Pst x0 0 []))) ->
  pipe_says launch dir e f argv = ErrProps.said (x_body_with e xb argv x0) /\ pipe_left launch dir e f argv = p_mem (fst (p_body launch dir e argv (Pst x0 0 []))).
Proof.
  intros H. destruct (p_Main_eq launch dir ie f a0 opts rest xb H) as [E M]. split; [|exact M]. unfold pipe_says, pipe_run.
  pose proof (x_Main_with_says e xb argv (Xst (new_test f) [] None)) as S. cbv zeta in S. rewrite E in S. exact S.
Qed.
Lemma unbegun : command_line e f opts rest -> (forall u, snd (x_Begin e l0) <> Ok u) ->
  (forall xb, x_body_with e xb argv x0 = (p_x (fst (p_body launch dir e argv (Pst x0 0 []))), snd (p_body launch dir e argv (Pst x0 0 [])))) /\
  p_mem (fst (p_body launch dir e argv (Pst x0 0 []))) = [].
Proof.
  intros Hc N. rewrite (p_begin launch dir ie f a0 opts rest Hc). split.
  - intros xb. rewrite (x_with_launch e xb f [] a0 opts rest None Hc). unfold xbind at 1. destruct (x_Begin e l0) as [x1 [u|i| | |]]; try reflexivity. exfalso. exact (N u eq_refl).
  - destruct (x_Begin e l0) as [x1 [u|i| | |]]; try reflexivity. exfalso. exact (N u eq_refl).
Qed.
Lemma begun_mem fa : command_line e f opts rest -> pr_fate (launch rest) = Some fa -> forall x1 u, x_Begin e l0 = (x1, Ok u) ->
  let xr := x_pipe dir e (launch rest) fa rest x1 in
  pipe_says launch dir e f argv = ErrProps.said xr /\ map snd (pipe_left launch dir e f argv) = match snd xr with Ok _ => [the_array rest] | _ => [the_process rest fa; the_array rest] end.
Proof.
  intros Hc Hf x1 u B. cbv zeta. destruct (p_body_eq launch dir ie f a0 opts rest fa Hc Hf) as (B1 & B2 & B3).
  destruct (ends (fun _ => x_pipe dir e (launch rest) fa rest)) as [S M]; [rewrite B1, B2; apply surjective_pairing|].
  rewrite S, M, B3, B. cbn [snd]. rewrite (x_with_launch e _ f [] a0 opts rest None Hc). unfold xbind at 1 2. rewrite B. split; [reflexivity|].
  destruct (x_pipe dir e (launch rest) fa rest x1) as [x2 [z|i| | |]]; reflexivity.
Qed.
End Ends.
Lemma x_begin_record e s err : s_os s = None -> s_is s = None -> s_in s = [] ->
  x_Begin e (Xst s err None) = match opened e (s_files s) (s_out s) with
    | None => (Xst s err (Some (between' ($"unable to open output file ") (s_out s))), Throw ExnRuntime)
    | Some (o, f1) => (Xst (put_text (header e) (set_os (set_files s f1) o)) err None, Ok tt)
    end.
Proof.
  intros H1 H2 H3. unfold x_Begin. unfold xbind at 1. unfold throwing at 1. cbn [x_s x_err x_what]. rewrite (open_output_spec e s H1).
  destruct (opened e (s_files s) (s_out s)) as [[o f1]|]; [|reflexivity].
  set (s1 := set_os (set_files s f1) o). cbv iota beta. unfold xbind at 1. unfold throwing at 1, open_input. cbn [x_s x_err x_what].
  change (s_in s1) with (s_in s). rewrite H3. cbv iota beta. unfold xbind at 1. unfold quiet at 1, GetCompareMode. cbn [x_s x_err x_what].
  rewrite (record_mode e s1 H2 H3). reflexivity.
Qed.
(** Recording: the refusals of output files; why the output file could not be opened, or how the child ended.  The array of the command is never freed. *)
Theorem C85_record : forall launch dir ie f a0 opts rest fa, let e := i_env ie in let argv := a0 :: flat opts ++ rest in
  command_line e f opts rest -> input_of opts = None ->
  match opened e f (output_of e f opts) with
  | None => pipe_says launch dir e f argv = refusals e f opts ++ [Caught (Some ($"unable to open output file " ++ [chr 34] ++ output_of e f opts ++ [chr 34] ++ $"!")) ExnRuntime] /\
            pipe_left launch dir e f argv = []
  | Some _ => pr_fate (launch rest) = Some fa ->
              pipe_says launch dir e f argv = refusals e f opts ++ farewell fa /\ map snd (pipe_left launch dir e f argv) = [the_array rest]
  end.
Proof.
  intros launch dir ie f a0 opts rest fa e argv Hc Hi. rewrite <- (told_end fa).
  pose proof (x_begin_record e (launched_in e f [] opts) (refusals e f opts) eq_refl eq_refl (ltac:(cbn; rewrite Hi; reflexivity))) as B.
  change (s_files (launched_in e f [] opts)) with f in B. change (s_out (launched_in e f [] opts)) with (output_of e f opts) in B.
  assert (Hin : s_in (launched_in e f [] opts) = []) by (cbn; rewrite Hi; reflexivity). set (s0 := launched_in e f [] opts) in *.
  destruct (opened e f (output_of e f opts)) as [[o f1]|].
  - intros Hf. destruct (begun_mem launch dir ie f a0 opts rest fa Hc Hf _ _ B) as [S M]. fold argv in S, M. fold e in S, M. rewrite S, M. clear S M. rewrite x_pipe_eq.
    set (s1 := put_text (header e) (set_os (set_files s0 f1) o)). set (y := out (heading rest) (Xst s1 (refusals e f opts) None)).
    destruct (put_text_any (header e) (set_os (set_files s0 f1) o)) as ((F1 & F2 & F3 & F4 & F5) & _). fold s1 in F1, F2, F3, F4, F5.
    assert (R : compare_mode e (x_s y) = Ok false) by (apply record_mode; [exact F5|cbn; rewrite F1; exact Hin]).
    assert (Em : exists s', x_Measure dir e (TextPlain (drain (pr_chunks (launch rest)) []) ($"stdout")) y = (Xst s' (refusals e f opts) None, Ok 0%Z)).
    { unfold x_Measure, xbind at 1. unfold quiet at 1, GetCompareMode. rewrite R. cbv iota beta. unfold xbind at 1. unfold quiet at 1. cbn [x_s x_err x_what]. rewrite put_meas_eq. eexists. reflexivity. }
    destruct Em as [s' Em]. rewrite Em. unfold ErrProps.said. cbn [fst snd x_err]. rewrite app_nil_r. split; reflexivity.
  - destruct (unbegun launch dir ie f a0 opts rest Hc) as [E M]; [fold e s0; rewrite B; discriminate|].
    destruct (ends launch dir ie f a0 opts rest (fun _ => xret 0%Z) (E _)) as [S L]. fold e argv in S, L. rewrite S, L. split; [|exact M].
    unfold argv. rewrite (x_with_launch e _ f [] a0 opts rest None Hc). fold s0. unfold xbind at 1. rewrite B. reflexivity.
Qed.
Print Assumptions C85_record.

(** A comparing run that does not get to the child: why.  The child is not started, nothing is allocated. *)
Lemma begins_not e s err : s_os s = None -> s_is s = None -> s_in s <> [] -> started e (s_files s) (s_out s) (s_path s) (s_in s) = None -> forall u, snd (x_Begin e (Xst s err None)) <> Ok u.
Proof.
  intros H1 H2 H3 N u E. pose proof (x_begin_at e s err (s_in s) H1 H2 eq_refl H3) as B. unfold started in N.
  destruct (opened e (s_files s) (s_out s)) as [[o f1]|]; [|rewrite B in E; discriminate E]. cbv zeta in B. set (q := baseline_path e f1 (s_path s) (s_in s)) in *.
  destruct (can_open e f1 q) eqn:Er; [|rewrite B in E; discriminate E]. rewrite B in E. clear B.
  destruct (RegMain.readable_contents e f1 q Er) as (k & Ek & [(r & w & b & Eb & Ec & Ef)|(r & w & x & Eb & Ec)]); rewrite Ec in N.
  - revert E. unfold x_read_input, xbind, ErrModel.say, throwing, read_input. cbn [x_s x_err x_what set_is s_is]. rewrite Ek. change (s_files (set_is (set_os (set_files s f1) o) (Some k))) with f1. rewrite Eb.
    destruct (ReadXMLInput (e_asserts e) (e_ext e) b); try discriminate N; cbv iota beta; discriminate.
  - revert E. unfold x_read_input, xbind, ErrModel.say, throwing, read_input. cbn [x_s x_err x_what set_is s_is]. rewrite Ek. change (s_files (set_is (set_os (set_files s f1) o) (Some k))) with f1. rewrite Eb. discriminate.
Qed.
Theorem C85_not_started : forall launch dir ie f a0 opts rest inf, let e := i_env ie in let argv := a0 :: flat opts ++ rest in command_line e f opts rest -> input_of opts = Some inf ->
  started e f (output_of e f opts) (dirs_of opts) inf = None ->
  pipe_left launch dir e f argv = [] /\ (forall other, pipe_run other dir e f argv = pipe_run launch dir e f argv) /\
  let all := pipe_says launch dir e f argv in let quote := fun s => [chr 34] ++ s ++ [chr 34] ++ $"!" in
  match opened e f (output_of e f opts) with
  | None => all = refusals e f opts ++ [Caught (Some ($"unable to open output file " ++ quote (output_of e f opts))) ExnRuntime]
  | Some (_, f1) =>
      let q := baseline_path e f1 (dirs_of opts) inf in
      (sources e f1 q = Missing -> all = refusals e f opts ++ [Caught (Some ($"unable to open input file " ++ quote inf)) ExnRuntime]) /\
      (sources e f1 q = Unreadable -> all = refusals e f opts ++ [Caught (Some ($"XML:read error")) ExnRuntime]) /\
      (forall bytes i, contents e f1 q = Some bytes -> ReadXMLInput (e_asserts e) (e_ext e) bytes = Throw i ->
         exists l, reading (fst (expat (e_ext e) bytes)) l /\ all = refusals e f opts ++ l ++ [ParseError; Caught (Some ($"parse error")) i])
  end.
Proof.
  intros launch dir ie f a0 opts rest inf e argv Hc Hi Hn.
  assert (N : forall u, snd (x_Begin e (Xst (launched_in e f [] opts) (refusals e f opts) None)) <> Ok u).
  { assert (Hin : s_in (launched_in e f [] opts) = inf) by (cbn; rewrite Hi; reflexivity).
    apply begins_not; [reflexivity|reflexivity|rewrite Hin; exact (input_of_nonempty e f opts inf (proj1 Hc) Hi)|]. rewrite Hin.
    change (s_path (launched_in e f [] opts)) with (dirs_of opts ++ []). rewrite app_nil_r. exact Hn. }
  destruct (unbegun launch dir ie f a0 opts rest Hc N) as [E M]. destruct (ends launch dir ie f a0 opts rest (fun _ => xret 0%Z) (E _)) as [S L]. fold e argv in S, L.
  split; [rewrite L; exact M|]. split.
  - intros other. unfold pipe_run, p_Main. cbn [p_x p_next p_mem x_s x_err]. unfold argv. 
    change (Xst (set_unmatched (new_test f) (s_unmatched (new_test f) + 1)) [] None) with (Xst (set_unmatched (fresh f []) 1) [] None).
    unfold e. rewrite !(p_begin _ dir ie f a0 opts rest Hc). fold e. destruct (x_Begin e _) as [x1 [u|i| | |]]; try reflexivity. exfalso. exact (N u eq_refl).
  - cbv zeta. rewrite S. pose proof (not_started_with e (fun _ => xret 0%Z) f [] a0 opts rest inf Hc Hi) as G. cbv zeta in G. rewrite app_nil_r in G. exact G.
Qed.
Print Assumptions C85_not_started.


(** A comparing run that gets to the child: the refusals, the faults of the baseline document, the remarks about the one measurement and its partner (C77), how the child ended.  If
    comparing the two raises an exception, that is said instead of the child's end, and the process object is not deleted.  The array of the command never is. *)
Lemma compared_calmly e c s s' z : CompareMeasurement e (meas_of (e_io e) true c) (tolerant_of c) s = (s', Ok z) -> forall b i, hd_error (s_input s) = Some b ->
  kind_of_moment e b (c, s_tol s, s_files s) = true -> verdict e (s_path s) b (c, s_tol s, s_files s) <> Throw i.
Proof.
  intros H b i Hb Hk. revert H. unfold CompareMeasurement. unfold mbind at 1. unfold gets at 1. cbv iota.
  destruct (s_input s) as [|b0 bs]; [discriminate|]. injection Hb as ->. unfold kind_of_moment, same_kind in Hk. cbn [fst] in Hk.
  rewrite Hk. unfold mbind at 1. unfold modify at 1. cbv iota. unfold mbind at 1. rewrite locate_found. cbv iota. unfold mbind, gets. cbv iota.
  unfold verdict, visitor. cbn [set_input s_path s_files s_tol].
  destruct (Compare _ _ _ _ _ _) as [[b2 m2] v]. unfold mlift. cbn [snd]. destruct v as [v|j| | |]; try (intros X; discriminate X). discriminate.
Qed.
(** [raised i]: comparing raises [i] *)
Definition raised (e : env) (dirs : list str) (baseline : list meas) (mo : moment) (i : exn) : Prop :=
  exists b, hd_error baseline = Some b /\ kind_of_moment e b mo = true /\ verdict e dirs b mo = Throw i.
Theorem C85_compare : forall launch dir ie f a0 opts rest inf o f1 baseline bytes fa z, let e := i_env ie in let argv := a0 :: flat opts ++ rest in
  command_line e f opts rest -> input_of opts = Some inf -> started e f (output_of e f opts) (dirs_of opts) inf = Some (o, f1, baseline) ->
  contents e f1 (baseline_path e f1 (dirs_of opts) inf) = Some bytes -> pr_fate (launch rest) = Some fa -> snd (pipe_run launch dir e f argv) = Ok z ->
  let mo := (TextPlain (concat (map snd (pr_chunks (launch rest)))) ($"stdout"), default_tol, f1) in
  exists faults l, reading (fst (expat (e_ext e) bytes)) faults /\ remarks_on dir e (dirs_of opts) (hd_error baseline) mo l /\
    (((forall i, ~ raised e (dirs_of opts) baseline mo i) /\ pipe_says launch dir e f argv = refusals e f opts ++ faults ++ l ++ farewell fa /\ map snd (pipe_left launch dir e f argv) = [the_array rest]) \/
     (exists i, raised e (dirs_of opts) baseline mo i /\ pipe_says launch dir e f argv = refusals e f opts ++ faults ++ l ++ [Caught None i] /\
        map snd (pipe_left launch dir e f argv) = [the_process rest fa; the_array rest])).
Proof.
  intros launch dir ie f a0 opts rest inf o f1 baseline bytes fa z e argv Hc Hi Hs Hb Hf Hz mo. rewrite <- (told_end fa).
  destruct (p_body_eq launch dir ie f a0 opts rest fa Hc Hf) as (B1 & B2 & B3). cbv zeta in B1, B2, B3.
  set (xb := fun _ : list str => x_pipe dir e (launch rest) fa rest) in *.
  assert (EB : x_body_with e xb argv (Xst (set_unmatched (fresh f []) 1) [] None) = (p_x (fst (p_body launch dir e argv (Pst (Xst (set_unmatched (fresh f []) 1) [] None) 0 []))), snd (p_body launch dir e argv (Pst (Xst (set_unmatched (fresh f []) 1) [] None) 0 [])))) by (unfold e, argv; rewrite B1, B2; apply surjective_pairing).
  destruct (ends launch dir ie f a0 opts rest xb EB) as [S M]. fold e argv in S, M.
  destruct (begun_with e xb f [] a0 opts rest inf o f1 baseline bytes Hc Hi) as (k & Hu & _ & E); [rewrite app_nil_r; exact Hs|rewrite app_nil_r; exact Hb|].
  fold argv in E. set (faults := says_from 0 (fst (expat (e_ext e) bytes))) in *. set (s2 := comparing e f [] opts o f1 k baseline) in *. set (x2 := Xst s2 (refusals e f opts ++ faults) None) in *.
  assert (Bg : exists u x1, x_Begin e (Xst (launched_in e f [] opts) (refusals e f opts) None) = (x1, Ok u)).
  { destruct (x_Begin e (Xst (launched_in e f [] opts) (refusals e f opts) None)) as [x1 [u|i| | |]] eqn:Eb; [eauto| | | |]; exfalso;
      pose proof (begun_with e (fun _ => fun x => (x, Ok 0%Z)) f [] a0 opts rest inf o f1 baseline bytes Hc Hi) as G; rewrite !app_nil_r in G; destruct (G Hs Hb) as (k' & _ & _ & E');
      rewrite (x_with_launch e _ f [] a0 opts rest None Hc) in E'; unfold xbind in E'; rewrite Eb in E'; discriminate E'. }
  destruct Bg as (u & x1 & Bg). fold e in B3. rewrite Bg in B3. cbn [snd] in B3. 
  change (p_mem (fst (p_body launch dir e argv (Pst (Xst (set_unmatched (fresh f []) 1) [] None) 0 []))) =
    match snd (x_body_with e xb argv (Xst (set_unmatched (fresh f []) 1) [] None)) with Ok _ => [command_array rest] | _ => [process_object rest fa; command_array rest] end) in B3.
  rewrite E in B3. fold e argv in M. rewrite B3 in M. rewrite E in S.
  unfold xb in S, M. rewrite x_pipe_eq in S, M.
  assert (Hd : drain (pr_chunks (launch rest)) [] = concat (map snd (pr_chunks (launch rest)))) by apply drain_all.
  rewrite Hd in S, M. set (c := TextPlain (concat (map snd (pr_chunks (launch rest)))) ($"stdout")) in *. set (y := out (heading rest) x2) in *.
  assert (Cm : x_Measure dir e c y = x_Compare dir e (meas_of (e_io e) true c) (tolerant_of c) y).
  { unfold x_Measure, xbind at 1. unfold quiet at 1, GetCompareMode. rewrite (compare_mode_open e (x_s y) k eq_refl). cbv iota beta. destruct y. reflexivity. }
  rewrite Cm in S, M. destruct (x_Compare dir e (meas_of (e_io e) true c) (tolerant_of c) y) as [x3 r] eqn:Ec.
  destruct (x_Compare_says dir e c y x3 r Hu Ec) as (Wh & l & L & Rm). change (s_path (x_s y)) with (dirs_of opts ++ []) in Rm. rewrite app_nil_r in Rm.
  change (s_input (x_s y)) with baseline in Rm. change (s_tol (x_s y)) with default_tol in Rm. change (s_files (x_s y)) with f1 in Rm.
  pose proof (fo_base _ _ (follows_Compare dir e (meas_of (e_io e) true c) (tolerant_of c)) y) as FC. rewrite Ec in FC. cbn [fst snd] in FC.
  assert (Hr : forall v, x_body_with e xb argv (Xst (set_unmatched (fresh f []) 1) [] None) = v -> (exists q, snd v = Ok q) \/ (exists i, snd v = Throw i)).
  { intros v Ev. unfold pipe_run in Hz. pose proof (p_Main_eq launch dir ie f a0 opts rest xb EB) as [EM _]. fold e argv in EM. apply (f_equal snd) in EM. cbn [snd] in EM. rewrite Hz in EM.
    revert EM. unfold x_Main_with. cbn [x_s x_err]. change (Xst (set_unmatched (new_test f) (s_unmatched (new_test f) + 1)) [] None) with (Xst (set_unmatched (fresh f []) 1) [] None). rewrite Ev.
    destruct v as [x4 [q|i| | |]]; cbn [snd]; try discriminate; eauto. }
  specialize (Hr _ E). unfold xb in Hr. rewrite x_pipe_eq, Hd in Hr. fold c y in Hr. rewrite Cm in Hr. try rewrite Ec in Hr.
  exists faults, l. split; [apply read_reading|]. split; [exact Rm|].
  destruct (compare_one e c (x_s y) (x_s x3) r FC) as [_ Th].
  destruct r as [v|i| | |]; cbn [snd] in S, M, Hr; try (exfalso; destruct Hr as [[q X]|[q X]]; discriminate X).
  - left. split; [|split].
    + intros i (b & A1 & A2 & A3). exact (compared_calmly e c (x_s y) (x_s x3) v FC b i A1 A2 ltac:(change (s_path (x_s y)) with (dirs_of opts ++ []); rewrite app_nil_r; exact A3)).
    + rewrite S. unfold ErrProps.said. cbn [fst snd x_err]. rewrite L, app_nil_r. change (x_err y) with (refusals e f opts ++ faults). rewrite <- !app_assoc. reflexivity.
    + rewrite M. reflexivity.
  - right. exists i. split; [|split].
    + destruct (Th i eq_refl) as ((b & A1 & A2 & A3) & _). exists b. change (s_path (x_s y)) with (dirs_of opts ++ []) in A3. rewrite app_nil_r in A3. split; [|split; [exact A2|exact A3]].
      change (s_input (x_s y)) with baseline in A1. destruct baseline; [discriminate A1|exact A1].
    + rewrite S. unfold ErrProps.said. cbn [fst snd x_err]. rewrite L, Wh. change (x_err y) with (refusals e f opts ++ faults). rewrite <- !app_assoc. reflexivity.
    + rewrite M. reflexivity.
Qed.
Print Assumptions C85_compare.

(** A child that never closes its streams keeps the run forever, if it gets to it. *)
Theorem C85_never_ends : forall launch dir ie f a0 opts rest, let e := i_env ie in command_line e f opts rest -> pr_fate (launch rest) = None ->
  match input_of opts with None => opened e f (output_of e f opts) <> None | Some inf => started e f (output_of e f opts) (dirs_of opts) inf <> None end ->
  snd (pipe_run launch dir e f (a0 :: flat opts ++ rest)) = Hang.
Proof.
  intros launch dir ie f a0 opts rest e Hc Hf Hb.
  assert (Bg : exists u x1, x_Begin e (Xst (launched_in e f [] opts) (refusals e f opts) None) = (x1, Ok u)).
  { destruct (input_of opts) as [inf|] eqn:Hi.
    - destruct (started e f (output_of e f opts) (dirs_of opts) inf) as [[[o f1] baseline]|] eqn:Hs; [|contradiction].
      assert (Hbytes : exists bytes, contents e f1 (baseline_path e f1 (dirs_of opts) inf) = Some bytes).
      { unfold started in Hs. destruct (opened e f _) as [[o' f1']|]; [|discriminate Hs]. destruct (contents e f1' _) as [b|] eqn:Ec; [|discriminate Hs].
        destruct (ReadXMLInput _ _ b); try discriminate Hs. injection Hs as _ <- _. eauto. }
      destruct Hbytes as [bytes Hbytes].
      destruct (x_Begin e (Xst (launched_in e f [] opts) (refusals e f opts) None)) as [x1 [u|i| | |]] eqn:Eb; [eauto| | | |]; exfalso;
      pose proof (begun_with e (fun _ => fun x => (x, Ok 0%Z)) f [] a0 opts rest inf o f1 baseline bytes Hc Hi) as G; rewrite !app_nil_r in G; destruct (G Hs Hbytes) as (k' & _ & _ & E');
      rewrite (x_with_launch e _ f [] a0 opts rest None Hc) in E'; unfold xbind in E'; rewrite Eb in E'; discriminate E'.
    - rewrite (x_begin_record e (launched_in e f [] opts) (refusals e f opts) eq_refl eq_refl); [|cbn; rewrite Hi; reflexivity].
      change (s_files (launched_in e f [] opts)) with f. change (s_out (launched_in e f [] opts)) with (output_of e f opts). destruct (opened e f (output_of e f opts)) as [[o f1]|]; [eauto|contradiction]. }
  destruct Bg as (u & x1 & Bg). unfold pipe_run, p_Main. cbn [p_x p_next p_mem x_s x_err].
  change (Xst (set_unmatched (new_test f) (s_unmatched (new_test f) + 1)) [] None) with (Xst (set_unmatched (fresh f []) 1) [] None).
  unfold e. rewrite (p_begin launch dir ie f a0 opts rest Hc). fold e. rewrite Bg.
  pose proof (test_eq launch dir e a0 rest x1 0 [] (Forall_nil _)) as T. cbv zeta in T. rewrite Hf in T. rewrite T. reflexivity.
Qed.
Print Assumptions C85_never_ends.

(** Without any argument, not even the program's name, which POSIX allows, the array has no element and one is written. *)
Theorem C85_no_arguments : forall launch dir e f, snd (pipe_run launch dir e f []) = UB.
Proof. intros. reflexivity. Qed.
Print Assumptions C85_no_arguments.

(** * Cases *)
Definition c85_env : ienv := IEnv rep_env (i_header ex_ienv) (i_decode ex_ienv) (i_diff ex_ienv) (i_diff_image ex_ienv) (i_show_size ex_ienv) (i_show_vector ex_ienv) (i_show_slice ex_ienv) (i_png ex_ienv) (i_double ex_ienv) (i_output ex_ienv) (i_baselines ex_ienv).
Definition c85_text : str := $"<output><DartMeasurement name='stdout' type='text/plain' compression='gzip'>ab</DartMeasurement></output>".
Definition c85_place : str := $"<output><DartMeasurementFile name='stdout' type='text/plain'>d</DartMeasurementFile></output>".
Definition c85_files : store := fun k =>
  if eqs k ($"b.xml") then Some (FFile true true c85_text) else if eqs k ($"c.xml") then Some (FFile true true c85_place) else if eqs k ($"bad.xml") then Some (FFile true true ($"<output>"))
  else if eqs k ($"d") then Some (FDir true true false) else None.
Definition c85_child (_ : list str) : process := Process [(true, $"a"); (false, $"b")] (Some Killed).
Definition c85_endless (_ : list str) : process := Process [(true, $"a")] None.
Local Notation run opts := (pipe_run c85_child true rep_env c85_files ($"pipe" :: flat opts ++ [$"child"; $"x"])).
Local Notation says opts := (pipe_says c85_child true rep_env c85_files ($"pipe" :: flat opts ++ [$"child"; $"x"])).
Local Notation left opts := (pipe_left c85_child true rep_env c85_files ($"pipe" :: flat opts ++ [$"child"; $"x"])).
(** No leaks: not so, even if all goes well. *)
Theorem C85_freed_refuted : exists launch dir e f argv, snd (pipe_run launch dir e f argv) = Ok 0%Z /\ pr_fate (launch (tl argv)) = Some (Exit 0) /\ pipe_left launch dir e f argv <> [].
Proof. exists (fun _ => Process [(true, $"a")] (Some (Exit 0))), true, rep_env, c85_files, [$"pipe"; $"child"]. split; [reflexivity|]. split; [reflexivity|]. vm_compute. discriminate. Qed.
Print Assumptions C85_freed_refuted.
(** A child that was killed is always reported: not so. *)
Theorem C85_end_told_refuted : exists launch dir e f argv z, snd (pipe_run launch dir e f argv) = Ok z /\ (forall l, pr_fate (launch l) = Some Killed) /\ pipe_left launch dir e f argv <> [] /\
  forall t, ~ In (Written t) (pipe_says launch dir e f argv).
Proof.
  exists c85_child, true, rep_env, c85_files, [$"pipe"; $"-I"; $"c.xml"; $"child"], (-1)%Z. split; [reflexivity|]. split; [reflexivity|]. split; [vm_compute; discriminate|].
  intros t H. replace (pipe_says c85_child true rep_env c85_files [$"pipe"; $"-I"; $"c.xml"; $"child"]) with [Caught None ExnRuntime] in H by (vm_compute; reflexivity). destruct H as [H|[]]. discriminate H.
Qed.
Print Assumptions C85_end_told_refuted.
(** The status does not tell a child that was killed from one that returned -1; the messages do. *)
Theorem C85_status_ambiguous_refuted : exists f dir e argv a b, (forall l, pr_fate (a l) = Some Killed) /\ (forall l, pr_fate (b l) = Some (Exit (-1))) /\ snd (pipe_run a dir e f argv) = snd (pipe_run b dir e f argv) /\
  s_stdout (x_s (p_x (fst (pipe_run a dir e f argv)))) = s_stdout (x_s (p_x (fst (pipe_run b dir e f argv)))).
Proof. exists c85_files, true, rep_env, [$"pipe"; $"child"], c85_child, (fun _ => Process [(true, $"ab")] (Some (Exit (-1)))). do 2 (split; [reflexivity|]). split; vm_compute; reflexivity. Qed.
Print Assumptions C85_status_ambiguous_refuted.

Lemma c85_line opts : Forall (accepted rep_env c85_files) opts -> command_line rep_env c85_files opts [$"child"; $"x"].
Proof. intros H. split; [exact H|]. vm_compute. intuition discriminate. Qed.
Definition c85_b : list (str * str) := [($"-I", $"b.xml")].
Definition c85_bad : list (str * str) := [($"-I", $"bad.xml")].
Lemma c85_b_read : Forall (accepted rep_env c85_files) c85_b.
Proof. unfold c85_b. accept. Qed.
Lemma c85_bad_read : Forall (accepted rep_env c85_files) c85_bad.
Proof. unfold c85_bad. accept. Qed.
Example C85_same_program_met := C85_same_program c85_child true c85_env c85_files ($"pipe") c85_b [$"child"; $"x"] Killed (c85_line _ c85_b_read) eq_refl.
Example C85_record_met := C85_record c85_child true c85_env c85_files ($"pipe") [] [$"child"; $"x"] Killed (c85_line _ (Forall_nil _)) eq_refl eq_refl.
Example C85_record_case : says [] = [Written ($"Child was killed by parent." ++ [nl])] /\ map snd (left []) = [Array [Some (Some ($"child")); Some (Some ($"x")); Some None]].
Proof. vm_compute. split; reflexivity. Qed.
Example C85_not_started_met := C85_not_started c85_child true c85_env c85_files ($"pipe") c85_bad [$"child"; $"x"] ($"bad.xml") (c85_line _ c85_bad_read) eq_refl ltac:(vm_compute; reflexivity).
Definition c85_baseline : list meas := match started rep_env c85_files [] [] ($"b.xml") with Some (_, _, l) => l | None => [] end.
Example C85_compare_met := C85_compare c85_child true c85_env c85_files ($"pipe") c85_b [$"child"; $"x"] ($"b.xml") None c85_files c85_baseline c85_text Killed (-1)%Z
  (c85_line _ c85_b_read) eq_refl eq_refl eq_refl eq_refl ltac:(vm_compute; reflexivity).
Example C85_compare_case : says [($"-I", $"b.xml")] = [BadCompression ($"gzip"); BadCompression ($"gzip"); BadCompression ($"gzip"); Written ($"Child was killed by parent." ++ [nl])].
Proof. vm_compute. reflexivity. Qed.
Example C85_compare_raises : says [($"-I", $"c.xml")] = [Caught None ExnRuntime] /\ map snd (left [($"-I", $"c.xml")]) = [the_process [$"child"; $"x"] Killed; the_array [$"child"; $"x"]].
Proof. vm_compute. split; reflexivity. Qed.
Example C85_never_ends_met := C85_never_ends c85_endless true c85_env c85_files ($"pipe") [] [$"child"; $"x"] (c85_line _ (Forall_nil _)) eq_refl ltac:(vm_compute; discriminate).
Example C85_never_ends_compare := C85_never_ends c85_endless true c85_env c85_files ($"pipe") c85_b [$"child"; $"x"] (c85_line _ c85_b_read) eq_refl ltac:(vm_compute; discriminate).
