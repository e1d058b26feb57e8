(** What a run of a test on the ITK driver does that uses the whole protected interface (specification for C87).
    [judged], [situation], [wrote], [appended], [comparing], [closing], [outcome_status]: FullSpec.  [image_told], [dest], [piece], [on_stdout]: ItkTellProps.  [line]: LineSpec. *)
From Coq Require Import Floats.SpecFloat.
From Verif Require Import Base Str Dec PathModel MeasModel VisitModel RegModel RegSpec LineSpec ImgModel ItkModel ApiModel ApiSpec FullModel FullSpec ItkTellProps FullItkModel.
Local Open Scope Z_scope.

(** the same with other files *)
Definition moved (f : store) (a : situation) : situation := At (at_tol a) f (at_dirs a) (at_expected a) (at_in a) (at_out a).
(** a value returned, or an exception caught *)
Definition answers (r : res Z) (a : Z + exn) : Prop := match a with inl z => r = Ok z | inr x => r = Throw x end.
(** Comparison of an object with its partner in the baseline: answer, mismatches, what is printed, the files afterwards, the object afterwards.  Image files are compared and
    reported as images if the partner has the same name and type; everything else as by the plain driver. *)
Inductive weighed (ie : ienv) (tol : tolerances) (o : option str) (a : situation) : option meas -> meas -> bool -> Z + exn -> Z -> piece -> store -> meas -> Prop :=
| weighed_other p m tolerant r n text after : (image_object m = true -> forall b, p = Some b -> same_kind b m = false) ->
    judged (i_env ie) a p m tolerant r n text after ->
    weighed ie tol o a p m tolerant r n (Out, text) (appended o text (at_files a)) after
| weighed_image b name esc file tolerant x r n c f : let m := MF (Mf name esc itk_type file) in same_kind b m = true ->
    image_told ie (at_dirs a) o tol (at_files a) file name (Some b) c f n x -> answers x r ->
    weighed ie tol o a (Some b) m tolerant r n c f m.

(** How a test unfolds: image tolerances, number of names generated, situation, test, what is left of the baseline; then the mismatches, what is printed, the situation and the
    outcome at the end. *)
Inductive does (ie : ienv) (args : list str) (o : option str) (reading : bool) : tolerances -> Z -> situation -> xprog -> list meas -> Z -> list piece -> situation -> res Z -> Prop :=
| d_return t c a z bs : does ie args o reading t c a (XReturn z) bs 0 [] a (Ok z)
| d_raise t c a x bs : does ie args o reading t c a (XRaise x) bs 0 [] a (Throw x)
| d_record t c a call k bs text n l a' out : comparing (i_env ie) reading a = false -> line (e_io (i_env ie)) call text ->
    does ie args o reading t c (wrote o (text ++ [nl]) a) (k (inl 0)) bs n l a' out ->
    does ie args o reading t c a (XMeasure call k) bs n ((Out, text ++ [nl]) :: l) a' out
| d_measure t c a call k bs r n1 w f after n l a' out : comparing (i_env ie) reading a = true ->
    weighed ie t o a (hd_error bs) (meas_of (e_io (i_env ie)) true call) (tolerant_of call) r n1 w f after ->
    does ie args o reading t c (moved f a) (k r) (tl bs) n l a' out ->
    does ie args o reading t c a (XMeasure call k) bs (n1 + n) (w :: l) a' out
| d_record_image t c a file name k bs n l a' out : comparing (i_env ie) reading a = false -> let text := element FILE name itk_type (Tail file) ++ [nl] in
    does ie args o reading t c (wrote o text a) (k (inl 0)) bs n l a' out ->
    does ie args o reading t c a (XImage file name k) bs n ((Out, text) :: l) a' out
| d_image t c a file name k bs r n1 w f after n l a' out : comparing (i_env ie) reading a = true ->
    weighed ie t o a (hd_error bs) (MF (Mf name true itk_type file)) false r n1 w f after ->
    does ie args o reading t c (moved f a) (k r) (tl bs) n l a' out ->
    does ie args o reading t c a (XImage file name k) bs (n1 + n) (w :: l) a' out
| d_compare t c a m tolerant k bs r n1 w f after n l a' out :
    weighed ie t o a (hd_error bs) m tolerant r n1 w f after ->
    does ie args o reading t c (moved f a) (k r after) (tl bs) n l a' out ->
    does ie args o reading t c a (XCompare m tolerant k) bs (n1 + n) (w :: l) a' out
| d_print t c a text k bs n l a' out : does ie args o reading t c (wrote o text a) k bs n l a' out ->
    does ie args o reading t c a (XPrint text k) bs n ((Out, text) :: l) a' out
| d_say t c a text k bs n l a' out : does ie args o reading t c a k bs n l a' out ->
    does ie args o reading t c a (XSay text k) bs n ((Std, text) :: l) a' out
| d_image_tolerance t t' c a k bs n l a' out : does ie args o reading t' c a k bs n l a' out ->
    does ie args o reading t c a (XImageTolerance t' k) bs n l a' out
| d_generate t c a ext root name k bs n l a' out : GenerateFileName (e_sc (i_env ie)) args c ext root = Ok name ->
    does ie args o reading t (c + 1) a (k name) bs n l a' out ->
    does ie args o reading t c a (XGenerate ext root k) bs n l a' out
| d_tolerance t c a x k bs n l a' out :
    does ie args o reading t c (At x (at_files a) (at_dirs a) (at_expected a) (at_in a) (at_out a)) k bs n l a' out ->
    does ie args o reading t c a (XSetRelativeTolerance x k) bs n l a' out
| d_expected t c a z k bs n l a' out :
    does ie args o reading t c (At (at_tol a) (at_files a) (at_dirs a) z (at_in a) (at_out a)) k bs n l a' out ->
    does ie args o reading t c a (XSetExpectedReturn z k) bs n l a' out
| d_in t c a i k bs n l a' out :
    does ie args o reading t c (At (at_tol a) (at_files a) (at_dirs a) (at_expected a) i (at_out a)) k bs n l a' out ->
    does ie args o reading t c a (XSetInFileName i k) bs n l a' out
| d_out t c a i k bs n l a' out :
    does ie args o reading t c (At (at_tol a) (at_files a) (at_dirs a) (at_expected a) (at_in a) i) k bs n l a' out ->
    does ie args o reading t c a (XSetOutFileName i k) bs n l a' out
| d_dirs t c a d k bs n l a' out :
    does ie args o reading t c (At (at_tol a) (at_files a) d (at_expected a) (at_in a) (at_out a)) k bs n l a' out ->
    does ie args o reading t c a (XSetInFileSearchPath d k) bs n l a' out
| d_prepend t c a d k bs n l a' out :
    does ie args o reading t c (At (at_tol a) (at_files a) (d :: at_dirs a) (at_expected a) (at_in a) (at_out a)) k bs n l a' out ->
    does ie args o reading t c a (XPrependInFileSearchPath d k) bs n l a' out
| d_write t c a path b k bs n l a' out :
    does ie args o reading t c (moved (write_file (i_env ie) (at_files a) path b) a) k bs n l a' out ->
    does ie args o reading t c a (XWriteFile path b k) bs n l a' out
| d_look t c a k bs n l a' out :
    does ie args o reading t c a (k (View (comparing (i_env ie) reading a) (at_expected a) (at_tol a) (at_in a) (at_out a) (at_dirs a) (node_at (i_env ie) (at_files a)))) bs n l a' out ->
    does ie args o reading t c a (XLook k) bs n l a' out.
