(** The tests of /repo/TestingFramework/tests run in the model: each program is the [Test] function of one of tfRegressionTest*.cxx, the baselines are the files
    of tests/xml and tests/data, the command lines those of tests/CMakeLists.txt, and the value returned is the one the repository expects.
    This is a check of the model, not a proof of a property.  Generated by tools/gen_repotests.py. *)
From Coq Require Import Floats.SpecFloat.
From Verif Require Import Base Str Dec PathModel MeasModel XmlModel ReadModel RegModel ArgFacts ArgProps RegSpec RegMain RegProps ItkSim ApiModel ApiSpec NumModel ConfProps.
Local Open Scope Z_scope.

(** tests/xml/tfRegressionTestArgumentsTest1.xml *)
Definition xml_ArgumentsTest1 : str := ($"<?xml version=""1.0"" encoding=""US-ASCII""?>" ++ [nl] ++ $"<!-- created on victoria.nlm.nih.gov at Wed Sep 16 09:54:28 2009" ++ [nl] ++ $" -->" ++ [nl] ++ $"<output>" ++ [nl] ++ $"<DartMeasurement name=""ExpectedReturn"" type=""numeric/integer"">0</DartMeasurement>" ++ [nl] ++ $"<DartMeasurement name=""Argument 0"" type=""text/string"">tfRegressionTestArgumentsTest</DartMeasurement>" ++ [nl] ++ $"</output>" ++ [nl]).
(** tests/xml/tfRegressionTestArgumentsTest2.xml *)
Definition xml_ArgumentsTest2 : str := ($"<?xml version=""1.0"" encoding=""US-ASCII""?>" ++ [nl] ++ $"<!-- created on victoria.nlm.nih.gov at Wed Sep 16 09:54:28 2009" ++ [nl] ++ $" -->" ++ [nl] ++ $"<output>" ++ [nl] ++ $"<DartMeasurement name=""ExpectedReturn"" type=""numeric/integer"">0</DartMeasurement>" ++ [nl] ++ $"<DartMeasurement name=""Argument 0"" type=""text/string"">tfRegressionTestArgumentsTest</DartMeasurement>" ++ [nl] ++ $"<DartMeasurement name=""Argument 1"" type=""text/string"">one</DartMeasurement>" ++ [nl] ++ $"</output>" ++ [nl]).
(** tests/xml/tfRegressionTestArgumentsTest3.xml *)
Definition xml_ArgumentsTest3 : str := ($"<?xml version=""1.0"" encoding=""US-ASCII""?>" ++ [nl] ++ $"<!-- created on victoria.nlm.nih.gov at Wed Sep 16 09:54:28 2009" ++ [nl] ++ $" -->" ++ [nl] ++ $"<output>" ++ [nl] ++ $"<DartMeasurement name=""ExpectedReturn"" type=""numeric/integer"">0</DartMeasurement>" ++ [nl] ++ $"<DartMeasurement name=""Argument 0"" type=""text/string"">tfRegressionTestArgumentsTest</DartMeasurement>" ++ [nl] ++ $"<DartMeasurement name=""Argument 1"" type=""text/string"">one</DartMeasurement>" ++ [nl] ++ $"<DartMeasurement name=""Argument 2"" type=""text/string"">two</DartMeasurement>" ++ [nl] ++ $"</output>" ++ [nl]).
(** tests/xml/tfRegressionTestArgumentsTest4.xml *)
Definition xml_ArgumentsTest4 : str := ($"<?xml version=""1.0"" encoding=""US-ASCII""?>" ++ [nl] ++ $"<!-- created on victoria.nlm.nih.gov at Wed Sep 16 09:54:28 2009" ++ [nl] ++ $" -->" ++ [nl] ++ $"<output>" ++ [nl] ++ $"<DartMeasurement name=""ExpectedReturn"" type=""numeric/integer"">1</DartMeasurement>" ++ [nl] ++ $"<DartMeasurement name=""Argument 0"" type=""text/string"">tfRegressionTestArgumentsTest</DartMeasurement>" ++ [nl] ++ $"</output>" ++ [nl]).
(** tests/xml/tfRegressionTestArgumentsTest5.xml *)
Definition xml_ArgumentsTest5 : str := ($"<?xml version=""1.0"" encoding=""US-ASCII""?>" ++ [nl] ++ $"<!-- created on victoria.nlm.nih.gov at Wed Sep 16 09:54:28 2009" ++ [nl] ++ $" -->" ++ [nl] ++ $"<output>" ++ [nl] ++ $"<DartMeasurement name=""ExpectedReturn"" type=""numeric/integer"">1</DartMeasurement>" ++ [nl] ++ $"<DartMeasurement name=""Argument 0"" type=""text/string"">tfRegressionTestArgumentsTest</DartMeasurement>" ++ [nl] ++ $"<DartMeasurement name=""Argument 1"" type=""text/string"">one</DartMeasurement>" ++ [nl] ++ $"</output>" ++ [nl]).
(** tests/xml/tfRegressionTestArgumentsTest6.xml *)
Definition xml_ArgumentsTest6 : str := ($"<?xml version=""1.0"" encoding=""US-ASCII""?>" ++ [nl] ++ $"<!-- created on victoria.nlm.nih.gov at Wed Sep 16 09:54:28 2009" ++ [nl] ++ $" -->" ++ [nl] ++ $"<output>" ++ [nl] ++ $"<DartMeasurement name=""ExpectedReturn"" type=""numeric/integer"">1</DartMeasurement>" ++ [nl] ++ $"<DartMeasurement name=""Argument 0"" type=""text/string"">tfRegressionTestArgumentsTest</DartMeasurement>" ++ [nl] ++ $"<DartMeasurement name=""Argument 1"" type=""text/string"">one</DartMeasurement>" ++ [nl] ++ $"<DartMeasurement name=""Argument 2"" type=""text/string"">two</DartMeasurement>" ++ [nl] ++ $"</output>" ++ [nl]).
(** tests/xml/tfRegressionTestArgumentsTest7.xml *)
Definition xml_ArgumentsTest7 : str := ($"<?xml version=""1.0"" encoding=""US-ASCII""?>" ++ [nl] ++ $"<!-- created on victoria.nlm.nih.gov at Wed Sep 16 09:54:28 2009" ++ [nl] ++ $" -->" ++ [nl] ++ $"<output>" ++ [nl] ++ $"<DartMeasurement name=""ExpectedReturn"" type=""numeric/integer"">0</DartMeasurement>" ++ [nl] ++ $"<DartMeasurement name=""Argument 0"" type=""text/string"">tfRegressionTestArgumentsTest</DartMeasurement>" ++ [nl] ++ $"<DartMeasurement name=""Argument 1"" type=""text/string"">one</DartMeasurement>" ++ [nl] ++ $"<DartMeasurement name=""Argument 2"" type=""text/string"">-R</DartMeasurement>" ++ [nl] ++ $"<DartMeasurement name=""Argument 3"" type=""text/string"">1</DartMeasurement>" ++ [nl] ++ $"<DartMeasurement name=""Argument 4"" type=""text/string"">three</DartMeasurement>" ++ [nl] ++ $"</output>" ++ [nl]).
(** tests/xml/tfRegressionTestArgumentsTest8.xml *)
Definition xml_ArgumentsTest8 : str := ($"<?xml version=""1.0"" encoding=""US-ASCII""?>" ++ [nl] ++ $"<!-- created on victoria.nlm.nih.gov at Mon Jun  7 17:20:38 2010" ++ [nl] ++ $" -->" ++ [nl] ++ $"<output>" ++ [nl] ++ $"<DartMeasurement name=""ExpectedReturn"" type=""numeric/integer"">0</DartMeasurement>" ++ [nl] ++ $"<DartMeasurement name=""Argument 0"" type=""text/string"">tfRegressionTestArgumentsTest</DartMeasurement>" ++ [nl] ++ $"<DartMeasurement name=""Argument 1"" type=""text/string"">one</DartMeasurement>" ++ [nl] ++ $"<DartMeasurement name=""Argument 2"" type=""text/string"">two</DartMeasurement>" ++ [nl] ++ $"</output>" ++ [nl]).
(** tests/xml/tfRegressionTestOutputTest1.xml *)
Definition xml_OutputTest1 : str := ($"<?xml version=""1.0"" encoding=""US-ASCII""?>" ++ [nl] ++ $"<!-- created on victoria.nlm.nih.gov at Thu Apr  9 13:50:33 2009" ++ [nl] ++ $" -->" ++ [nl] ++ $"<output>" ++ [nl] ++ $"</output>" ++ [nl]).
(** tests/xml/tfRegressionTestOutputTest2.xml *)
Definition xml_OutputTest2 : str := ($"<?xml version=""1.0"" encoding=""US-ASCII""?>" ++ [nl] ++ $"<!-- created on victoria.nlm.nih.gov at Thu Apr  9 13:50:33 2009" ++ [nl] ++ $" -->" ++ [nl] ++ $"<output>" ++ [nl] ++ $"</output>" ++ [nl]).
(** tests/xml/tfRegressionTestTest1.xml *)
Definition xml_Test1 : str := ($"<?xml version=""1.0"" encoding=""US-ASCII""?>" ++ [nl] ++ $"<!-- created on victoria.nlm.nih.gov at Thu Apr  9 13:50:33 2009" ++ [nl] ++ $" -->" ++ [nl] ++ $"<output>" ++ [nl] ++ $"</output>" ++ [nl]).
(** tests/xml/tfRegressionTestTest2.xml *)
Definition xml_Test2 : str := ($"<?xml version=""1.0"" encoding=""US-ASCII""?>" ++ [nl] ++ $"<!-- created on victoria.nlm.nih.gov at Thu Apr 30 14:35:53 2009" ++ [nl] ++ $" -->" ++ [nl] ++ $"<output>" ++ [nl] ++ $"<DartMeasurement name=""TextString"" type=""text/string"">string text value</DartMeasurement>" ++ [nl] ++ $"<DartMeasurement name=""TextPlain"" type=""text/plain"">this is" ++ [nl] ++ $" some plain text" ++ [nl] ++ $"</DartMeasurement>" ++ [nl] ++ $"<DartMeasurement name=""NumericInteger"" type=""numeric/integer"">0</DartMeasurement>" ++ [nl] ++ $"<DartMeasurement name=""NumericFloat"" type=""numeric/float"">1.1</DartMeasurement>" ++ [nl] ++ $"<DartMeasurement name=""NumericDouble"" type=""numeric/double"">2.222222222222222</DartMeasurement>" ++ [nl] ++ $"<DartMeasurement name=""NumericBoolean"" type=""numeric/boolean"">1</DartMeasurement>" ++ [nl] ++ $"</output>" ++ [nl]).
(** tests/xml/tfRegressionTestTest3.xml *)
Definition xml_Test3 : str := ($"<?xml version=""1.0"" encoding=""US-ASCII""?>" ++ [nl] ++ $"<!-- created on victoria.nlm.nih.gov at Wed Apr 22 15:49:06 2009" ++ [nl] ++ $" -->" ++ [nl] ++ $"<output>" ++ [nl] ++ $"<DartMeasurement name=""TextString"" type=""text/string"">difference string text value</DartMeasurement>" ++ [nl] ++ $"<DartMeasurement name=""TextPlain"" type=""text/plain"">this is different" ++ [nl] ++ $" some plain text" ++ [nl] ++ $"</DartMeasurement>" ++ [nl] ++ $"<DartMeasurement name=""NumericInteger"" type=""numeric/integer"">1</DartMeasurement>" ++ [nl] ++ $"<DartMeasurement name=""NumericFloat"" type=""numeric/float"">2.2</DartMeasurement>" ++ [nl] ++ $"<DartMeasurement name=""NumericDouble"" type=""numeric/double"">4.44444</DartMeasurement>" ++ [nl] ++ $"<DartMeasurement name=""NumericBoolean"" type=""numeric/boolean"">0</DartMeasurement>" ++ [nl] ++ $"</output>" ++ [nl]).
(** tests/xml/tfRegressionTestTest4.xml *)
Definition xml_Test4 : str := ($"<?xml version=""1.0"" encoding=""US-ASCII""?>" ++ [nl] ++ $"<!-- created on victoria.nlm.nih.gov at Thu Apr 23 16:01:12 2009" ++ [nl] ++ $" -->" ++ [nl] ++ $"<output>" ++ [nl] ++ $"<DartMeasurementFile name=""FileTextPlain"" type=""text/plain"">plain.txt</DartMeasurementFile>" ++ [nl] ++ $"<DartMeasurementFile name=""FileImagePNG"" type=""image/png"">vm_head_coronal.png</DartMeasurementFile>" ++ [nl] ++ $"<DartMeasurementFile name=""FileImageJPEG"" type=""image/jpeg"">vm_head_coronal.jpg</DartMeasurementFile>" ++ [nl] ++ $"</output>" ++ [nl]).
(** tests/data/plain.txt *)
Definition plain_txt : str := ($"this is just " ++ [nl] ++ $"a simple file " ++ [nl] ++ $"with a few lines of plain test" ++ [nl]).

(** the source directory: data is readable, the images hold any bytes *)
Definition repo_files : store := fun k =>
  if eqs k ($"/r/data") then Some (FDir true true true) else
  if eqs k ($"/r/data/plain.txt") then Some (FFile true true plain_txt) else
  if eqs k ($"/r/data/vm_head_coronal.png") then Some (FFile true true ($"png")) else
  if eqs k ($"/r/data/vm_head_coronal.jpg") then Some (FFile true true ($"jpg")) else
  if eqs k ($"/r/xml/tfRegressionTestArgumentsTest1.xml") then Some (FFile true true xml_ArgumentsTest1) else
  if eqs k ($"/r/xml/tfRegressionTestArgumentsTest2.xml") then Some (FFile true true xml_ArgumentsTest2) else
  if eqs k ($"/r/xml/tfRegressionTestArgumentsTest3.xml") then Some (FFile true true xml_ArgumentsTest3) else
  if eqs k ($"/r/xml/tfRegressionTestArgumentsTest4.xml") then Some (FFile true true xml_ArgumentsTest4) else
  if eqs k ($"/r/xml/tfRegressionTestArgumentsTest5.xml") then Some (FFile true true xml_ArgumentsTest5) else
  if eqs k ($"/r/xml/tfRegressionTestArgumentsTest6.xml") then Some (FFile true true xml_ArgumentsTest6) else
  if eqs k ($"/r/xml/tfRegressionTestArgumentsTest7.xml") then Some (FFile true true xml_ArgumentsTest7) else
  if eqs k ($"/r/xml/tfRegressionTestArgumentsTest8.xml") then Some (FFile true true xml_ArgumentsTest8) else
  if eqs k ($"/r/xml/tfRegressionTestOutputTest1.xml") then Some (FFile true true xml_OutputTest1) else
  if eqs k ($"/r/xml/tfRegressionTestOutputTest2.xml") then Some (FFile true true xml_OutputTest2) else
  if eqs k ($"/r/xml/tfRegressionTestTest1.xml") then Some (FFile true true xml_Test1) else
  if eqs k ($"/r/xml/tfRegressionTestTest2.xml") then Some (FFile true true xml_Test2) else
  if eqs k ($"/r/xml/tfRegressionTestTest3.xml") then Some (FFile true true xml_Test3) else
  if eqs k ($"/r/xml/tfRegressionTestTest4.xml") then Some (FFile true true xml_Test4) else
  None.
Definition repo_env : env :=
  Env true false (Some (fun _ _ => 0)) std_io (fun _ => ([], false)) (fun p => p) (fun _ => true) ($"host") ($"now").
Definition say (p : call) (k : aprog) : aprog := ACall p (fun _ => k).
(** -I with the baseline, then the rest *)
Definition with_baseline (n : str) (rest : list str) : list str := n :: $"-I" :: ($"/r/xml/" ++ n ++ $".xml") :: rest.
Definition returned (test : list str -> aprog) (argv : list str) (s : rst) : res Z := snd (api_Main repo_env test argv s).

(** tests/tfRegressionTestTest1.cxx *)
Definition test_Test1 (args : list str) : aprog :=
  AReturn 0.
(** tests/tfRegressionTestTest2.cxx *)
Definition test_Test2 (args : list str) : aprog :=
  say (TextString ($"string text value") ($"TextString")) (
  say (TextPlain ($"this is" ++ [nl] ++ $" some plain text" ++ [nl]) ($"TextPlain")) (
  say (NumericInteger 0 ($"NumericInteger") true) (
  say (NumericFloat (S754_finite false 9227469 (-23)) ($"NumericFloat") true) (
  ASetRelativeTolerance (S754_finite false 4503599627370496 (-98)) (
  say (NumericDouble (S754_finite false 5003999585967218 (-51)) ($"NumericDouble") true) (
  say (NumericBoolean true ($"NumericBoolean") true) (
  AReturn 0))))))).
(** tests/tfRegressionTestTest3.cxx: the measurements depend on the mode *)
Definition test_Test3 (args : list str) : aprog := ALook (fun v => if v_compare v then
    say (TextString ($"string text value") ($"TextString")) (
    say (TextPlain ($"this is" ++ [nl] ++ $" some plain text" ++ [nl]) ($"TextPlain")) (
    say (NumericInteger 0 ($"NumericInteger") true) (
    say (NumericFloat (S754_finite false 9227469 (-23)) ($"NumericFloat") true) (
    say (NumericDouble (S754_finite false 7505999378950827 (-51)) ($"NumericDouble") true) (
    say (NumericBoolean true ($"NumericBoolean") true) (
    AReturn 0))))))
  else
    say (TextString ($"difference string text value") ($"TextString")) (
    say (TextPlain ($"this is different" ++ [nl] ++ $" some plain text" ++ [nl]) ($"TextPlain")) (
    say (NumericInteger 1 ($"NumericInteger") true) (
    say (NumericFloat (S754_finite false 9227469 (-22)) ($"NumericFloat") true) (
    say (NumericDouble (S754_finite false 5003999585967218 (-50)) ($"NumericDouble") true) (
    say (NumericBoolean false ($"NumericBoolean") true) (
    AReturn 0))))))).
(** tests/tfRegressionTestTest4.cxx: the search path is set in the constructor *)
Definition test_Test4 (args : list str) : aprog :=
  say (FileTextPlain ($"/r/data/plain.txt") ($"FileTextPlain")) (
  AReturn 0).
(** tests/tfRegressionTestOutputTest1.cxx *)
Definition test_OutputTest1 (args : list str) : aprog :=
  say (TextString ($"string text value") ($"TextString")) (
  say (TextPlain ($"this is" ++ [nl] ++ $" some plain text" ++ [nl]) ($"TextPlain")) (
  say (NumericInteger 0 ($"NumericInteger") true) (
  say (NumericFloat (S754_finite false 9227469 (-23)) ($"NumericFloat") true) (
  say (NumericDouble (S754_finite false 7505999378950827 (-51)) ($"NumericDouble") true) (
  say (NumericBoolean true ($"NumericBoolean") true) (
  AReturn 0)))))).
(** tests/tfRegressionTestOutputTest2.cxx *)
Definition test_OutputTest2 (args : list str) : aprog :=
  say (FileTextPlain ($"/r/data/plain.txt") ($"FileTextPlain")) (
  say (FileImagePNG ($"/r/data/vm_head_coronal.png") ($"FileImagePNG")) (
  say (FileImageJPEG ($"/r/data/vm_head_coronal.jpg") ($"FileImageJPEG")) (
  AReturn 0))).
(** tests/tfRegressionTestArgumentsTest.cxx *)
Fixpoint each_argument (i : Z) (args : list str) : aprog :=
  match args with
  | [] => AReturn 0
  | a :: args => say (TextString a ($"Argument " ++ print_int i)) (each_argument (i + 1) args)
  end.
Definition test_ArgumentsTest (args : list str) : aprog :=
  ALook (fun v => say (NumericInteger (v_expected v) ($"ExpectedReturn") true) (each_argument 0 args)).

Example repo_Test1 : returned test_Test1 (with_baseline ($"tfRegressionTestTest1") []) (new_test repo_files) = Ok 0.
Proof. vm_compute. reflexivity. Qed.
Example repo_Test2 : returned test_Test2 (with_baseline ($"tfRegressionTestTest2") []) (new_test repo_files) = Ok 0.
Proof. vm_compute. reflexivity. Qed.
Example repo_Test3 : returned test_Test3 (with_baseline ($"tfRegressionTestTest3") []) (new_test repo_files) = Ok 6.
Proof. vm_compute. reflexivity. Qed.
Example repo_OutputTest1 : returned test_OutputTest1 (with_baseline ($"tfRegressionTestOutputTest1") []) (new_test repo_files) = Ok 6.
Proof. vm_compute. reflexivity. Qed.
Example repo_OutputTest2 : returned test_OutputTest2 (with_baseline ($"tfRegressionTestOutputTest2") []) (new_test repo_files) = Ok 3.
Proof. vm_compute. reflexivity. Qed.
Example repo_Test4 : returned test_Test4 (with_baseline ($"tfRegressionTestTest4") []) (configured repo_files [] [] [$"/r/data"] 0) = Ok 0.
Proof. vm_compute. reflexivity. Qed.
Example repo_ArgumentsTest1 : returned test_ArgumentsTest ([$"tfRegressionTestArgumentsTest"; $"-I"; $"/r/xml/tfRegressionTestArgumentsTest1.xml"]) (new_test repo_files) = Ok 0.
Proof. vm_compute. reflexivity. Qed.
Example repo_ArgumentsTest2 : returned test_ArgumentsTest ([$"tfRegressionTestArgumentsTest"; $"-I"; $"/r/xml/tfRegressionTestArgumentsTest2.xml"; $"one"]) (new_test repo_files) = Ok 0.
Proof. vm_compute. reflexivity. Qed.
Example repo_ArgumentsTest3 : returned test_ArgumentsTest ([$"tfRegressionTestArgumentsTest"; $"-I"; $"/r/xml/tfRegressionTestArgumentsTest3.xml"; $"one"; $"two"]) (new_test repo_files) = Ok 0.
Proof. vm_compute. reflexivity. Qed.
Example repo_ArgumentsTest4 : returned test_ArgumentsTest ([$"tfRegressionTestArgumentsTest"; $"-I"; $"/r/xml/tfRegressionTestArgumentsTest4.xml"; $"-R"; $"1"]) (new_test repo_files) = Ok 0.
Proof. vm_compute. reflexivity. Qed.
Example repo_ArgumentsTest5 : returned test_ArgumentsTest ([$"tfRegressionTestArgumentsTest"; $"-I"; $"/r/xml/tfRegressionTestArgumentsTest5.xml"; $"-R"; $"1"; $"one"]) (new_test repo_files) = Ok 0.
Proof. vm_compute. reflexivity. Qed.
Example repo_ArgumentsTest6 : returned test_ArgumentsTest ([$"tfRegressionTestArgumentsTest"; $"-I"; $"/r/xml/tfRegressionTestArgumentsTest6.xml"; $"-R"; $"1"; $"one"; $"two"]) (new_test repo_files) = Ok 0.
Proof. vm_compute. reflexivity. Qed.
Example repo_ArgumentsTest7 : returned test_ArgumentsTest ([$"tfRegressionTestArgumentsTest"; $"-I"; $"/r/xml/tfRegressionTestArgumentsTest7.xml"; $"one"; $"-R"; $"1"; $"three"]) (new_test repo_files) = Ok 0.
Proof. vm_compute. reflexivity. Qed.
Example repo_ArgumentsTest8 : returned test_ArgumentsTest ([$"tfRegressionTestArgumentsTest"; $"-P"; $"/r/data"; $"-I"; $"/r/xml/tfRegressionTestArgumentsTest8.xml"; $"one"; $"two"]) (new_test repo_files) = Ok 0.
Proof. vm_compute. reflexivity. Qed.
(** in these the comparison finds nothing to report *)
Definition reported (test : list str -> aprog) (argv : list str) : str * Z :=
  let s := fst (api_Main repo_env test argv (new_test repo_files)) in (s_stdout s, s_unmatched s).
Example repo_ArgumentsTest1_quiet : reported test_ArgumentsTest ([$"tfRegressionTestArgumentsTest"; $"-I"; $"/r/xml/tfRegressionTestArgumentsTest1.xml"]) = ([], 0).
Proof. vm_compute. reflexivity. Qed.
Example repo_ArgumentsTest2_quiet : reported test_ArgumentsTest ([$"tfRegressionTestArgumentsTest"; $"-I"; $"/r/xml/tfRegressionTestArgumentsTest2.xml"; $"one"]) = ([], 0).
Proof. vm_compute. reflexivity. Qed.
Example repo_ArgumentsTest3_quiet : reported test_ArgumentsTest ([$"tfRegressionTestArgumentsTest"; $"-I"; $"/r/xml/tfRegressionTestArgumentsTest3.xml"; $"one"; $"two"]) = ([], 0).
Proof. vm_compute. reflexivity. Qed.
Example repo_ArgumentsTest4_quiet : reported test_ArgumentsTest ([$"tfRegressionTestArgumentsTest"; $"-I"; $"/r/xml/tfRegressionTestArgumentsTest4.xml"; $"-R"; $"1"]) = ([], 0).
Proof. vm_compute. reflexivity. Qed.
Example repo_ArgumentsTest5_quiet : reported test_ArgumentsTest ([$"tfRegressionTestArgumentsTest"; $"-I"; $"/r/xml/tfRegressionTestArgumentsTest5.xml"; $"-R"; $"1"; $"one"]) = ([], 0).
Proof. vm_compute. reflexivity. Qed.
Example repo_ArgumentsTest6_quiet : reported test_ArgumentsTest ([$"tfRegressionTestArgumentsTest"; $"-I"; $"/r/xml/tfRegressionTestArgumentsTest6.xml"; $"-R"; $"1"; $"one"; $"two"]) = ([], 0).
Proof. vm_compute. reflexivity. Qed.
Example repo_ArgumentsTest7_quiet : reported test_ArgumentsTest ([$"tfRegressionTestArgumentsTest"; $"-I"; $"/r/xml/tfRegressionTestArgumentsTest7.xml"; $"one"; $"-R"; $"1"; $"three"]) = ([], 0).
Proof. vm_compute. reflexivity. Qed.
