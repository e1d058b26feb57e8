(** The text a recording run writes, spelled out (specification for C44; nothing here is taken from the model). *)
From Coq Require Import Floats.SpecFloat.
From Verif Require Import Base Str Dec MeasModel RegModel.

Definition q : str := [chr 34].
(** character data *)
Definition escaped (text : str) : str :=
  flat_map (fun c => if eqc c "&" then $"&amp;" else if eqc c "<" then $"&lt;" else if eqc c ">" then $"&gt;" else [c]) text.
Definition element (kind name type text : str) : str :=
  $"<" ++ kind ++ $" name=" ++ q ++ name ++ q ++ $" type=" ++ q ++ type ++ q ++ $">" ++ escaped text ++ $"</" ++ kind ++ $">".
Definition DATA : str := $"DartMeasurement".
Definition FILE : str := $"DartMeasurementFile".
(** sign and decimal digits of the [int] a [long] is converted to *)
Definition int_text (i : Z) (text : str) : Prop :=
  exists v, (-2147483648 <= v <= 2147483647)%Z /\ ((i - v) mod 4294967296 = 0)%Z /\ text = print_int v.
(** what follows the last slash *)
Definition last_part (path part : str) : Prop :=
  ~ In "/"%char part /\ (path = part \/ exists dir, path = dir ++ "/"%char :: part).
(** the line for a measurement; [io]: how floating point numbers are written *)
Inductive line (io : numio) : call -> str -> Prop :=
| line_string t n : line io (TextString t n) (element DATA n ($"text/string") t)
| line_plain t n : line io (TextPlain t n) (element DATA n ($"text/plain") t)
| line_integer i n tol t : int_text i t -> line io (NumericInteger i n tol) (element DATA n ($"numeric/integer") t)
| line_float x n tol : line io (NumericFloat x n tol) (element DATA n ($"numeric/float") (print32 io x))
| line_double x n tol : line io (NumericDouble x n tol) (element DATA n ($"numeric/double") (print64 io x))
| line_boolean (b : bool) n tol : line io (NumericBoolean b n tol) (element DATA n ($"numeric/boolean") (if b then $"1" else $"0"))
| line_text_file f n t : last_part f t -> line io (FileTextPlain f n) (element FILE n ($"text/plain") t)
| line_png f n t : last_part f t -> line io (FileImagePNG f n) (element FILE n ($"image/png") t)
| line_jpeg f n t : last_part f t -> line io (FileImageJPEG f n) (element FILE n ($"image/jpeg") t).
Definition first_lines (host time : str) : str :=
  $"<?xml version=" ++ q ++ $"1.0" ++ q ++ $" encoding=" ++ q ++ $"US-ASCII" ++ q ++ $"?>" ++ [nl] ++
  $"<!-- created on " ++ host ++ $" at " ++ time ++ $" -->" ++ [nl] ++ $"<output>" ++ [nl].
Definition last_line : str := $"</output>" ++ [nl].
