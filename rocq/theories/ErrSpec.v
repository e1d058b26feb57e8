(** What the driver says on the standard error, spelled out (specification for C77).  [msg]: ErrModel. *)
From Coq Require Import Floats.SpecFloat.
From Verif Require Import Base Str B64Model XmlText MeasModel XmlModel RegModel ArgFacts RegSpec ElemProps HeapXml ErrModel.

(** * Reading a baseline *)
Definition data_attributes : list str := [$"name"; $"type"; $"encoding"; $"compression"].
Definition file_attributes : list str := [$"name"; $"type"].
(** what is wrong with a start tag inside [d] open elements *)
Inductive complaint : nat -> str -> list (str * str) -> msg -> Prop :=
| wrong_root el al : el <> $"output" -> complaint 0 el al ExpectedOutput
| wrong_type al t : In ($"type", t) al -> (forall c, t <> type_of c) -> complaint 1 ($"DartMeasurement") al (UnknownType t)
| wrong_attribute al a v : In (a, v) al -> ~ In a data_attributes -> complaint 1 ($"DartMeasurement") al (UnknownAttribute a)
| wrong_file_attribute al a v : In (a, v) al -> ~ In a file_attributes -> complaint 1 ($"DartMeasurementFile") al (UnknownAttribute a)
| wrong_element el al : el <> $"DartMeasurement" -> el <> $"DartMeasurementFile" -> complaint 1 el al (UnknownElement el)
| nested d el al : complaint (S (S d)) el al TooDeep.

(** the events of a well-formed document: one element, text around it possible *)
Inductive content : list event -> Prop :=
| content_end : content []
| content_text s c : content c -> content (EData s :: c)
| content_element n al c1 c2 : content c1 -> content c2 -> content (EStart n al :: c1 ++ EEnd n :: c2).
Definition well_formed (evs : list event) : Prop :=
  exists pre n al c post, evs = map EData pre ++ EStart n al :: c ++ EEnd n :: map EData post /\ content c.
(** what an XML parser reports about a document it accepts *)
Definition reported (r : list event * bool) : Prop :=
  snd r = true -> well_formed (fst r) /\ forall n al, In (EStart n al) (fst r) -> NoDup (map fst al).

(** The documents of the framework: measurement elements without fault, each with its text, in an element "output" *)
Inductive items : list event -> list (str * list (str * str) * str) -> Prop :=
| items_end : items [] []
| items_text s c its : items c its -> items (EData s :: c) its
| items_element el al texts c its : (forall m, ~ complaint 1 el al m) -> items c its ->
    items (EStart el al :: map EData texts ++ EEnd el :: c) ((el, al, concat texts) :: its).
Definition in_dialect (evs : list event) (its : list (str * list (str * str) * str)) : Prop :=
  exists pre al c post, evs = map EData pre ++ EStart ($"output") al :: c ++ EEnd ($"output") :: map EData post /\ items c its.
(** the measurements an element stands for *)
Inductive makes : str * list (str * str) * str -> list meas -> Prop :=
| makes_data al text t c : value ($"type") al = Some t -> t = type_of c ->
    makes ($"DartMeasurement", al, text)
      [MD (Dm (or_else (value ($"name") al) []) true c (or_else (value ($"encoding") al) ($"none")) (or_else (value ($"compression") al) ($"none")) text None)]
| makes_nothing al text : value ($"type") al = None -> makes ($"DartMeasurement", al, text) []
| makes_file al text :
    makes ($"DartMeasurementFile", al, text) [MF (Mf (or_else (value ($"name") al) ($"unknown")) true (or_else (value ($"type") al) ($"text/plain")) text)].

(** the messages about a document: one for every fault of a start tag *)
Definition reading (evs : list event) (l : list msg) : Prop :=
  forall m, In m l <-> exists pre el al post, evs = pre ++ EStart el al :: post /\ complaint (depth_after pre 0) el al m.

(** * The command line *)
(** the output files that exist and may not be written *)
Definition refusals (e : env) (f : store) (opts : list (str * str)) : list msg :=
  map NotWritable (List.filter (fun v => is_file e f v && negb (is_writable e f v)) (values ($"-O") opts)).

(** * Comparing *)
(** what is wrong with the data of a baseline measurement; [IsBase64]: C08 *)
Inductive flaw (sc : bool) (d : dm) : msg -> Prop :=
| flaw_compression : dcomp d <> $"none" -> flaw sc d (BadCompression (dcomp d))
| flaw_encoding : denc d <> $"none" -> denc d <> $"base64" -> flaw sc d (BadEncoding (denc d))
| flaw_base64 : denc d = $"base64" -> dcontent d <> [] -> IsBase64 sc default_opts (dcontent d) = Ok 0 -> flaw sc d NotBase64.
(** what is said when a file is loaded; [dir]: the system gives directories a size that can be allocated *)
Inductive opening (dir : bool) (e : env) (f : store) (type path : str) : msg -> Prop :=
| opening_failed : sources e f path = Missing -> opening dir e f type path (CannotOpen path)
| opening_type : (forall c, type <> type_of c) -> (exists b, sources e f path = Bytes b) \/ sources e f path = Unreadable /\ dir = true ->
    opening dir e f type path (UnknownFileType type).
(** What is said when a measurement meets its partner [b] in the baseline, which has the same name and type. *)
Inductive remark (dir : bool) (e : env) (b : meas) : moment -> msg -> Prop :=
| remark_values d c t f x y : b = MD d -> meas_of (e_io e) true c = MD x -> ~ (tolerant_of c = true /\ SFeqb t SFzero = false) ->
    flaw (e_sc e) d y -> remark dir e b (c, t, f) y
| remark_text_file g c t f y : b = MF g -> (exists text n, c = TextString text n \/ c = TextPlain text n) ->
    opening dir e f (ftype g) (ffile g) y -> remark dir e b (c, t, f) y
| remark_file_text d c t f g y : b = MD d -> meas_of (e_io e) true c = MF g ->
    opening dir e f (ftype g) (ffile g) y -> remark dir e b (c, t, f) y
| remark_file_flaw d c t f g y : b = MD d -> meas_of (e_io e) true c = MF g ->
    (exists bytes, sources e f (ffile g) = Bytes bytes) \/ sources e f (ffile g) = Missing /\ dname d = [] ->
    flaw (e_sc e) d y -> remark dir e b (c, t, f) y
| remark_files g c t f h y : b = MF g -> meas_of (e_io e) true c = MF h ->
    opening dir e f (ftype g) (ffile g) y -> remark dir e b (c, t, f) y
| remark_second_file g c t f h y : b = MF g -> meas_of (e_io e) true c = MF h -> ftype g = $"text/plain" ->
    (exists bytes, sources e f (ffile g) = Bytes bytes) \/ sources e f (ffile g) = Missing /\ fname g = [] ->
    opening dir e f (ftype h) (ffile h) y -> remark dir e b (c, t, f) y.
(** all that is said about one measurement *)
Definition remarks_on (dir : bool) (e : env) (dirs : list str) (partner : option meas) (mo : moment) (l : list msg) : Prop :=
  forall y, In y l <-> exists b, partner = Some b /\ kind_of_moment e b mo = true /\
    remark dir e (found e dirs (snd mo) b (meas_of (e_io e) true (fst (fst mo)))) mo y.
(** the partner of the n-th measurement is the n-th of the baseline *)
Inductive remarks (dir : bool) (e : env) (dirs : list str) : list meas -> list moment -> list msg -> Prop :=
| remarks_end bs : remarks dir e dirs bs [] []
| remarks_next bs mo ms l ls : remarks_on dir e dirs (hd_error bs) mo l -> remarks dir e dirs (tl bs) ms ls -> remarks dir e dirs bs (mo :: ms) (l ++ ls).
