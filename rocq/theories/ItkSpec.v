(** Vocabulary of the statements about tests with image measurements. *)
From Coq Require Import Floats.SpecFloat.
From Verif Require Import Base Str Dec PathModel MeasModel VisitModel RegModel RegSpec ImgModel ItkModel.

(** * Measurements of a test on the ITK driver *)
Inductive icall := BaseCall (c : call) | ImageCall (file name : str).
(** a call with the relative tolerance, the image tolerances and the file contents at that time *)
Record imoment := IMoment { mo_call : icall; mo_rel : spec_float; mo_tol : tolerances; mo_files : store }.
(** the measurement made while comparing ([cm = true]) or recording *)
Definition imeas (ie : ienv) (cm : bool) (c : icall) : meas :=
  match c with BaseCall c => meas_of (e_io (i_env ie)) cm c | ImageCall file name => file_meas cm itk_type file name end.
(** where the three pictures of a differing image go *)
Definition pictures : list str := [$".diff.png"; $".base.png"; $".test.png"].
Definition picture_of (ie : ienv) (file : str) (k : str) : Prop :=
  exists ext p, In ext pictures /\ Append (i_output ie) (Tail file ++ ext) = Ok p /\ slot (i_env ie) p = Some k.
(** files that a measurement call may change: the framework's output file [o] and the pictures *)
Definition may_change (ie : ienv) (o : option str) (c : icall) (k : str) : Prop :=
  o = Some k \/ match c with BaseCall _ => False | ImageCall file _ => picture_of ie file k end.
Definition only_changes (ie : ienv) (o : option str) (c : icall) (f f' : store) : Prop := forall k, ~ may_change ie o c k -> f' k = f k.

(** How a test unfolds: its calls [ms] given the results [rs] they return, the names generated [ns] (their number before being the
    last index), the expected return value before and after, the end.  The last rule: the call raised an exception. *)
Inductive iunfolds (ie : ienv) (args : list str) (o : option str)
  : spec_float -> tolerances -> Z -> store -> Z -> iprog -> list imoment -> list Z -> list str -> Z -> res Z -> Prop :=
| iu_return t tol n f x z : iunfolds ie args o t tol n f x (IReturn z) [] [] [] x (Ok z)
| iu_raise t tol n f x i : iunfolds ie args o t tol n f x (IRaise i) [] [] [] x (Throw i)
| iu_call t tol n f f' x c k r ms rs ns x' out : only_changes ie o (BaseCall c) f f' ->
    iunfolds ie args o t tol n f' x (k r) ms rs ns x' out ->
    iunfolds ie args o t tol n f x (ICall c k) (IMoment (BaseCall c) t tol f :: ms) (r :: rs) ns x' out
| iu_image t tol n f f' x file name k r ms rs ns x' out : only_changes ie o (ImageCall file name) f f' ->
    iunfolds ie args o t tol n f' x (k r) ms rs ns x' out ->
    iunfolds ie args o t tol n f x (IImage file name k) (IMoment (ImageCall file name) t tol f :: ms) (r :: rs) ns x' out
| iu_tolerance t tol tol' n f x k ms rs ns x' out : iunfolds ie args o t tol' n f x k ms rs ns x' out ->
    iunfolds ie args o t tol n f x (ITolerance tol' k) ms rs ns x' out
| iu_generate t tol n f x ext root name k ms rs ns x' out : GenerateFileName (e_sc (i_env ie)) args n ext root = Ok name ->
    iunfolds ie args o t tol (n + 1) f x (k name) ms rs ns x' out ->
    iunfolds ie args o t tol n f x (IGenerate ext root k) ms rs (name :: ns) x' out
| iu_say t tol n f x text k ms rs ns x' out : iunfolds ie args o t tol n f x k ms rs ns x' out ->
    iunfolds ie args o t tol n f x (ISay text k) ms rs ns x' out
| iu_relative t t' tol n f x k ms rs ns x' out : iunfolds ie args o t' tol n f x k ms rs ns x' out ->
    iunfolds ie args o t tol n f x (IRelativeTolerance t' k) ms rs ns x' out
| iu_expected t tol n f x x1 k ms rs ns x' out : iunfolds ie args o t tol n f x1 k ms rs ns x' out ->
    iunfolds ie args o t tol n f x (IExpectedReturn x1 k) ms rs ns x' out
| iu_write t tol n f x path b k ms rs ns x' out : iunfolds ie args o t tol n (write_file (i_env ie) f path b) x k ms rs ns x' out ->
    iunfolds ie args o t tol n f x (IWriteFile path b k) ms rs ns x' out
| iu_stop_call t tol n f x c k i : iunfolds ie args o t tol n f x (ICall c k) [IMoment (BaseCall c) t tol f] [] [] x (Throw i)
| iu_stop_image t tol n f x file name k i : iunfolds ie args o t tol n f x (IImage file name k) [IMoment (ImageCall file name) t tol f] [] [] x (Throw i).

(** the verdict on a call and the baseline measurement at its position (C45-C49 for images, see ImgModel) *)
Definition iverdict (ie : ienv) (path : list str) (b : meas) (mo : imoment) : res bool :=
  let e := i_env ie in
  match mo_call mo with
  | BaseCall c => verdict e path b (c, mo_rel mo, mo_files mo)
  | ImageCall file name =>
      let m := file_meas true itk_type file name in
      match found e path (mo_files mo) b m, m with
      | MF g, MF t => image_verdict (i_diff ie) (read_image ie (mo_files mo)) (mo_tol mo) g t
      | b, m => snd (Compare (e_sc e) (sources e (mo_files mo)) (e_io e) new_cmp b m)
      end
  end.
Definition isame_value (ie : ienv) (path : list str) (b : meas) (mo : imoment) : bool :=
  match iverdict ie path b mo with Ok true => true | _ => false end.
Definition ikind (ie : ienv) (b : meas) (mo : imoment) : bool := same_kind b (imeas ie true (mo_call mo)).
Fixpoint imismatches (ie : ienv) (path : list str) (bs : list meas) (ms : list imoment) : Z :=
  match ms with
  | [] => 0%Z
  | mo :: ms' =>
      ((match bs with b :: _ => if ikind ie b mo && isame_value ie path b mo then 0 else 1 | [] => 1 end)
       + imismatches ie path (tl bs) ms')%Z
  end.
Fixpoint iresults (ie : ienv) (path : list str) (bs : list meas) (ms : list imoment) : list Z :=
  match ms with
  | [] => []
  | mo :: ms' =>
      (match bs with b :: _ => if ikind ie b mo && negb (isame_value ie path b mo) then 0%Z else 1%Z | [] => 1%Z end)
       :: iresults ie path (tl bs) ms'
  end.
(** the differing image and its baseline can be read for the report *)
Definition reportable (ie : ienv) (path : list str) (b : meas) (mo : imoment) : Prop :=
  match mo_call mo with
  | BaseCall _ => True
  | ImageCall file name =>
      match found (i_env ie) path (mo_files mo) b (file_meas true itk_type file name) with
      | MF g => exists t b, read_info ie (mo_files mo) file = Some t /\ read_info ie (mo_files mo) (ffile g) = Some b /\
                  (h_size b = h_size t -> exists ti bi, read_image ie (mo_files mo) file = Some ti /\ read_image ie (mo_files mo) (ffile g) = Some bi)
      | MD _ => True
      end
  end.
(** the call [mo], at the position of [b], raises [i]; [n]: the mismatches it counts before that *)
Definition raises (ie : ienv) (path : list str) (b : meas) (mo : imoment) (i : exn) (n : Z) : Prop :=
  ikind ie b mo = true /\
  ((iverdict ie path b mo = Throw i /\ n = 0%Z) \/
   (iverdict ie path b mo = Ok false /\ ~ reportable ie path b mo /\ i = ExnRuntime /\ n = 1%Z)).

(** * Recording *)
(** what a test does while recording, when every measurement returns 0: texts to standard output and measurements; and its end *)
Inductive step := Said (text : str) | Made (c : icall).
Fixpoint script (sc : bool) (args : list str) (n : Z) (p : iprog) : list step :=
  match p with
  | IReturn _ | IRaise _ => []
  | ICall c k => Made (BaseCall c) :: script sc args n (k 0%Z)
  | IImage f nm k => Made (ImageCall f nm) :: script sc args n (k 0%Z)
  | IGenerate ext root k => match GenerateFileName sc args n ext root with Ok name => script sc args (n + 1) (k name) | _ => [] end
  | ISay t k => Said t :: script sc args n k
  | ITolerance _ k | IRelativeTolerance _ k | IExpectedReturn _ k | IWriteFile _ _ k => script sc args n k
  end.
Fixpoint iends (sc : bool) (args : list str) (n : Z) (p : iprog) : res Z :=
  match p with
  | IReturn z => Ok z
  | IRaise x => Throw x
  | ICall _ k | IImage _ _ k => iends sc args n (k 0%Z)
  | IGenerate ext root k => match GenerateFileName sc args n ext root with Ok name => iends sc args (n + 1) (k name)
                            | Throw x => Throw x | UB => UB | Abort => Abort | Hang => Hang end
  | ISay _ k | ITolerance _ k | IRelativeTolerance _ k | IExpectedReturn _ k | IWriteFile _ _ k => iends sc args n k
  end.
Fixpoint iexpects (sc : bool) (args : list str) (n x : Z) (p : iprog) : Z :=
  match p with
  | IReturn _ | IRaise _ => x
  | ICall _ k | IImage _ _ k => iexpects sc args n x (k 0%Z)
  | IGenerate ext root k => match GenerateFileName sc args n ext root with Ok name => iexpects sc args (n + 1) x (k name) | _ => x end
  | IExpectedReturn x' k => iexpects sc args n x' k
  | ISay _ k | ITolerance _ k | IRelativeTolerance _ k | IWriteFile _ _ k => iexpects sc args n x k
  end.
Definition made (l : list step) : list icall := flat_map (fun a => match a with Made c => [c] | Said _ => [] end) l.
Definition said (l : list step) : str := flat_map (fun a => match a with Said t => t | Made _ => [] end) l.
(** the test, when every measurement returns 0, does not itself write the file with identity [o] *)
Fixpoint ileaves_alone (e : env) (args : list str) (n : Z) (o : option str) (p : iprog) : Prop :=
  match p with
  | IReturn _ | IRaise _ => True
  | ICall _ k | IImage _ _ k => ileaves_alone e args n o (k 0%Z)
  | IGenerate ext root k => match GenerateFileName (e_sc e) args n ext root with Ok name => ileaves_alone e args (n + 1) o (k name) | _ => True end
  | IWriteFile path _ k => (slot e path = None \/ slot e path <> o) /\ ileaves_alone e args n o k
  | ISay _ k | ITolerance _ k | IRelativeTolerance _ k | IExpectedReturn _ k => ileaves_alone e args n o k
  end.
