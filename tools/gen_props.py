#!/usr/bin/env python3
# Regenerates properties.jsonl (kept as a script only to avoid hand-escaping JSON).
import json,os
P=[]
def p(id,title,statement,quant,why,anchors):
    P.append(dict(id=id,title=title,statement=statement,quantifier=quant,why_tests_cant=why,anchors=anchors))
B='TestingFramework/tfBase64.cpp'
U='every byte sequence is possible; tests sample a handful of lengths'

p('C01','Base64 encoding without line breaks is the RFC 4648 text',
 'With new lines off, Encode of any buffer returns exactly the standard base64 text of that buffer: one 6-bit symbol after another, most significant bit first, zero-filled and padded with = to a multiple of four characters.',
 'all byte buffers of any length',U,[B+':Base64::Encode',B+':base64chars'])
p('C02','Layout of base64 text with line breaks on',
 'With new lines on (the default), Encode returns the standard text with exactly one new-line inserted after the 72nd character when the buffer holds at least 54 bytes (none otherwise), followed by NUL characters up to the allocated length of c+c/72 characters, c being the length of the standard text. Hence lines are not limited to 72 characters for buffers above 108 bytes, and the text contains NULs for 52, 53 and every size of at least 106 bytes.',
 'all byte buffers of any length',U,[B+':Base64::Encode'])
p('C03','Encode never reads or writes out of bounds',
 'For every buffer and both new-line settings, every index Encode uses in its output string is below the allocated length, and every index into the input is below the given size.',
 'all byte buffers, both option values','memory safety for every size; an out-of-bounds access may go unnoticed in a test',[B+':Base64::Encode'])
p('C04','Decode inverts Encode exactly on the sizes it can handle',
 'Decode(Encode(b)) succeeds and stores b if and only if the size of b is a multiple of three and either new lines were off, or the decoder ignores invalid characters, or the buffer is shorter than 108 bytes; in every other case it throws.',
 'all byte buffers, all option combinations',U,[B+':Base64::Encode',B+':Base64::Decode'])
p('C05','Decode accepts exactly the unpadded multiples of four symbols',
 'For 7-bit input, Decode succeeds iff, after removing white space (codes 8..13) and, when invalid characters are ignored, all characters outside the alphabet, the input is a multiple of four alphabet symbols without =; then it stores and returns 3 bytes per 4 symbols, being the big-endian regrouping of their 6-bit values. Otherwise it throws.',
 'all 7-bit strings, both option values','the accepted language is infinite',[B+':Base64::Decode',B+':base64bits'])
p('C06','Padded base64 is always rejected',
 'Any input that contains a = reachable by the decoder makes Decode throw, so the text of any buffer whose size is not a multiple of three can never be decoded (contrary to the documentation).',
 'all 7-bit strings containing =','every string and every buffer size',[B+':Base64::Decode','TestingFramework/tfBase64.h'])
p('C07','Decode stays inside a buffer of IsBase64 bytes',
 'If IsBase64(s) returns n > 0 then Decode(s) stores at most n bytes, at increasing offsets starting from 0, whether it succeeds or throws.',
 'all 7-bit strings (others: C09), both option values','a heap overrun must be excluded for all inputs',[B+':Base64::IsBase64',B+':Base64::Decode'])
p('C08','IsBase64 counts symbols, not bytes',
 'IsBase64 returns 0 for a string that is not base64 (padding allowed only to complete the last group of four, anything after the completed padding being ignored), and otherwise the number of alphabet symbols, which is 4/3 of the number of bytes Decode returns for unpadded text, not the decoded size the header promises.',
 'all 7-bit strings, both option values','the accepted language is infinite',[B+':Base64::IsBase64','TestingFramework/tfBase64.h'])
p('C09','8-bit characters index the decode table out of range',
 'On platforms with signed plain char, Decode and IsBase64 have undefined behaviour exactly when scanning reaches a character with code 128 or more; for 7-bit strings they are always defined.',
 'all strings','undefined behaviour is not observable by testing',[B+':Base64::Decode',B+':Base64::IsBase64'])

F='FileUtilities/PathName.cpp'
p('C10','Appending path names',
 'Append(p,f): the result is f when f is absolute or p is empty; otherwise p without its trailing slashes (one character always kept), a slash, and f. Append is associative, and has the empty name as left identity.',
 'all strings','strings are unbounded; corner cases with repeated slashes',[F+':PathName::Append'])
p('C11','Directory and tail decompose a path',
 'For every path whose last slash is not the first character, DirectoryName + "/" + Tail is the path, and Tail contains no slash; a path without slash has directory "." and is its own tail; a root-level path "/x" reports directory "." rather than "/".',
 'all strings','strings are unbounded',[F+':PathName::GetDirectoryName',F+':PathName::GetTailName'])
p('C12','Extensions',
 'GetExtension returns the text after the last dot of the tail and "" if the tail has no dot, so for each path with an extension the path ends in "." + extension and the extension contains neither dot nor slash.',
 'all strings','strings are unbounded',[F+':PathName::GetExtension'])
p('C13','SearchPathList finds the first existing file',
 'The result is the first list entry e (in order) such that Append(e,f) is a regular file, appended with f; if there is none, the result is the candidate of the last entry (not the empty path promised by the header), and it is empty for an empty list.',
 'all path lists, file names and file systems','every file-system state and list length',[F+':PathName::SearchPathList','FileUtilities/PathName.h'])
p('C14','Colon separated path lists',
 'Splitting a non-empty colon separated list gives components without colon whose join with colons is exactly the input (empty components, including leading and trailing ones, are kept); conversely splitting the join of colon-free components gives them back; the empty string gives no component.',
 'all strings','strings are unbounded',[F+':PathName::GetPathListFromColonSeparatedList'])
p('C15','Changing the current directory',
 'SetCurrentDirectory throws if the path is not a directory, returns false if it is one that may not be searched (the current directory being unchanged both times), and otherwise returns true; relative paths are resolved against the new directory afterwards, for every sequence of such calls.',
 'all file systems and call histories','call histories are unbounded',[F+':SetCurrentDirectory'])

M='TestingFramework/tfMeasurement.cpp'
p('C16','XML escaping is lossless',
 'For every string, the escaped text contains no raw < and >, every & starts one of the three entities the escaper emits, and replacing the entities gives back the string; so the escaping is injective.',
 'all strings','strings are unbounded',[M+':Measurement::ApplyEscapeSequences'])
p('C17','A printed measurement reads back',
 'For every in-memory measurement (plain text, data of encoding none, numeric) with quote-, ampersand- and less-than-free single-line name and type, printing and re-reading with the XML reader yields a measurement of the same name, type, encoding and content.',
 'all measurements with XML-safe content','names and contents are unbounded',[M+':Print','TestingFramework/tfRegressionTest.cpp:StartElementHandler'])
p('C18','Type dispatch is total',
 'The measurement factory creates the class named by each of the six type strings text/plain, text/string, numeric/integer, numeric/float, numeric/double, numeric/boolean and nothing for any other type string; a file measurement of another type is loaded as plain text (reporting type text/plain, not the requested one) with the requested name and the bytes of the file.',
 'all type strings, all files','type strings are unbounded',[M+':CreateDataMeasurement',M+':MeasurementFile::Load'])
p('C19','Cached decoded data',
 'After SetContentAsData with encoding "none" the data is available but the text content is unchanged (so Print and GetContent show the old content, contrary to the header) and a copy of the measurement loses the data; with compression other than none no data remains and base64 content becomes empty; changing the encoding attribute keeps previously stored or decoded data; SetContent always refreshes the data.',
 'all measurements, byte strings and attribute values','contents and histories are unbounded',[M+':DataMeasurement::SetContentAsData',M+':DataMeasurement::GetContentAsData',M+':DataMeasurement::SetAttributeEncoding'])
p('C20','Reading a base64 data measurement',
 'A data measurement with base64 content of 4k unpadded symbols reports 4k bytes of which the first 3k are the decoded bytes and the rest indeterminate, so comparing two such equal measurements is undefined; padded content throws on the first access and gives indeterminate bytes afterwards; content that is not base64 gives the text itself; storing 3k bytes (0 < 3k < 108) as base64 and reading back gives those bytes followed by k indeterminate ones.',
 'all 7-bit content strings, all byte strings','undefined bytes are not observable by testing',[M+':DataMeasurement::UpdateContentAsData',M+':DataMeasurement::IsEqual'])
p('C21','Integer and boolean measurements keep their value',
 'For every 32-bit integer v, SetValue(v) then GetValue returns v, the content is the sign and decimal digits of v, and different values have different content; booleans likewise with 0 and 1. GetValue skips white space and reads a sign and digits, ignoring what follows: out of range gives the nearest int, no number gives 0, every number except 0 is true; only for blank content it returns an uninitialised variable.',
 'all integers, all content strings','2^32 values, unbounded content',[M+':IntegerNumeric::GetValue',M+':IntegerNumeric::SetValue',M+':BooleanNumeric::GetValue'])
V='TestingFramework/tfMeasurementVisitor.cpp'
MH='TestingFramework/tfMeasurement.h'
p('C22','Tolerant comparison of integers',
 'Comparing integers l and r with a finite tolerance t is relative: true iff |l-r| is at most |t|*|l| or |t|*|r| rounded to double, hence always when it is within the exact bound; it is undefined behaviour when l-r overflows or equals the smallest int or l is the smallest int, and defined whenever none of l, r, l-r is or passes the smallest int.',
 'all pairs of 32-bit integers and all finite tolerances','2^64 pairs; overflow is undefined behaviour',[MH+':NumericData::_IsEqualTolerant'])
p('C23','Tolerant comparison of floating point values',
 'For every pair of IEEE values (float or double) the comparison is symmetric, insensitive to the sign of the tolerance, reflexive on finite values for every non-NaN tolerance, false for NaN values, monotone in the tolerance on finite values, and has the documented relative meaning up to one rounding per operation; with a NaN tolerance exactly the pairs below machine epsilon are equal; an infinity is never equal to itself but equal to every finite value and to the opposite infinity for every non-zero tolerance.',
 'all binary32/binary64 values and tolerances','2^128 pairs',[MH+':NumericData::_IsEqualTolerant'])
p('C24','Verdict of the compare visitor',
 'Without tolerance two in-memory measurements (no base64) compare equal iff their names, classes and bytes agree (the content, or the bytes stored with SetContentAsData); under a non-zero tolerance two numeric measurements of the same class are compared by value only, their names being ignored, and of different classes are unequal.',
 'all pairs of measurements and tolerances','measurements are unbounded',[V+':CompareVisitor::Visit',M+':DataMeasurement::IsEqual',MH+':IsEqualTolerant'])
p('C25','Verdict for file measurements',
 'Two file measurements are equal iff names and types agree, the type is one of the six data types and the bytes agree, a missing file counting as empty but only for the empty name and type text/plain; so image files are never equal. A directory that may be opened is not a missing file: when its bytes would be needed (names and types agree, and it is the baseline side, or the test side with a data type and a baseline file that is not missing) the comparison raises an exception. A file test measurement is compared with an in-memory baseline by its bytes, and vice versa, except that a numeric test measurement never equals a file baseline.',
 'all file systems and file measurements','file contents are unbounded',[M+':MeasurementFile::IsEqual',M+':MeasurementFile::Load',V+':CompareVisitor::Visit'])
p('C26','Difference report',
 'For every mismatching pair except plain text tests, the difference report prints the test measurement under the name "Test N" and then the baseline under "Baseline N", each followed by a new-line, and renames both objects accordingly; for a plain text test it prints a plain text measurement "Difference N" whose content is the line difference from the baseline content to the test content, and renames nothing.',
 'all measurement pairs','contents are unbounded',[V+':DifferenceVisitor::Visit',V+':DifferenceVisitor::AddPrefixesToNames'])

D='TestingFramework/tfDiff.cpp'
p('C27','Splitting into lines is lossless',
 'The lines Diff works on are new-line free, their number is one more than the number of new-lines, and joining them with new-lines gives back the text exactly (a final new-line makes an empty last line), for both texts.',
 'all strings','strings are unbounded',[D+':Diff::BuildLines'])
p('C28','Line identity is content identity',
 'Identifying the lines always finishes; whenever it does so without undefined behaviour, two lines (of either text) get the same identifier iff they are equal strings, whatever the hash collisions; without colliding hash values it always succeeds. With colliding lines it may read past the end of a hash table: Diff is then undefined.',
 'all pairs of strings','hash collisions are not sampled by tests',[D+':Diff::BuildLines'])
p('C29','The difference algorithm terminates',
 'For all texts of together fewer than 2^31-8 lines Diff finishes and no assertion fails: every middle-snake search ends, and both sub-problems are strictly smaller; it yields an output whenever the lines do not collide in their hash values.',
 'all pairs of line sequences','termination on every input',[D+':Diff::FindEditMidPoint',D+':Diff::GenerateEditList'])
p('C30','Diagonal arrays stay in bounds',
 'Every access of the middle-snake search to its diagonal buffer is inside the buffer as allocated and reads only elements written before, and every line identifier it reads is inside the sequences. The recursion around it does read identifiers outside the sequences (element -1 and one past the end, before testing the range), but whatever those reads give, and whether or not assertions are compiled in, the output is the same.',
 'all pairs of line sequences','memory safety on every input',[D+':Diff::FindEditMidPoint',D+':Diff::GenerateEditList'])
p('C31','The edit script is correct',
 'Applying the generated list of deletions and insertions to the first text\'s lines yields the second text\'s lines, all other lines being kept in order (texts of together fewer than 2^31-8 lines).',
 'all pairs of line sequences','all inputs, recursion depth unbounded',[D+':Diff::GenerateEditList'])
p('C32','The edit script is well-formed',
 'Edits come in increasing order in both texts and inside their ranges, none is empty, the lines passed over are equal in both texts, and any two edits are separated by at least one common line.',
 'all pairs of line sequences','all inputs',[D+':Diff::GenerateEditList'])
p('C33','No edits iff no difference',
 'The printed difference is empty iff both texts are equal.',
 'all pairs of line sequences','all inputs',[D+':Diff::GenerateEditList',D+':Diff::PrintEditList'])
p('C34','Printed difference is a faithful patch',
 'The printed output, parsed as commands LaR, RdL (L being the line where the deleted lines would have been) and FcT with their lines, transforms the first text into the second for NUL-free texts; with NUL characters printed lines are truncated and it does not.',
 'all pairs of texts','all inputs',[D+':Diff::PrintEditList',D+':Diff::PrintLines'])
p('C35','The edit script need not be shortest',
 'The script deletes at most all lines of the first and inserts at most all lines of the second text, and the lines kept are equally many in both; it is not always shortest: there are texts sharing a line for which nothing is kept.',
 'all pairs of line sequences','optimality is a statement over all scripts',[D+':Diff::FindEditMidPoint'])

R='TestingFramework/tfRegressionTest.cpp'
p('C36','Framework arguments are removed, the rest is kept in order',
 'ParseAndRemoveArguments consumes exactly the leading framework options with their parameters and leaves argv[0] and the first non-framework argument onwards in their original order; a framework option without parameter at the end of the command line makes it loop forever; a baseline that is not a readable file, or a search path that is not a readable directory, makes it throw, forgetting the file names given so far. The text given with -R is read as white space, an optional sign and decimal digits; beyond 64 bits the nearest number is taken, of which the low 32 bits are the expected value; other text is 0.',
 'all argument vectors','argument vectors are unbounded',[R+':ParseAndRemoveArguments'])
p('C37','Exit status of a regression test',
 'In a comparing run Main returns the number of mismatches if the test returned the expected value (an exception counting as return value -1 and as one more mismatch), otherwise the value the test returned (which may be 0, i.e. success); a recording run returns 0 if the value is the expected one and the value otherwise. If the output or baseline cannot be opened the run returns -1, except when -1 is the expected value. The shell sees the value modulo 256.',
 'all tests, baselines, arguments, file systems','all programs',[R+':Main',R+':BeginMeasurement',R+':EndMeasurement'])
p('C38','Mismatch count',
 'The mismatch count of a run is the number of positions at which the i-th test measurement differs from the i-th baseline measurement, plus the measurements beyond the end of the baseline; baseline measurements never produced by the test are not counted. For measurements compared exactly, differing means different name, type or content.',
 'all sequences of measurements, all tests','sequences are unbounded',[R+':CompareMeasurement',R+':UnmatchedMeasurement',R+':DifferenceMeasurement'])
p('C39','Record then compare',
 'For every test that returns, whose measurements have XML-safe names and content and are repeatable (no images; no measurement whose value depends on an earlier result; measured text files found with the same bytes; tolerant numbers finite and not the smallest int), on a machine whose name and time contain no double dash: recording a baseline and running again against it, on any machine formatting numbers alike, returns the same status (0 if the test returned the expected value), prints nothing and changes no file except those the test writes. Each exclusion is necessary; in particular images always mismatch, an expected exception passes recording but fails comparing, and using the baseline as output file destroys it.',
 'all tests, arguments, file systems','all programs and contents',[R+':Main',R+':CompareMeasurement',R+':ReadXMLInput'])
p('C40','Parsing does not depend on how the parser chunks text',
 'The measurements read from a baseline depend only on the concatenation of the character data between tags, not on how the XML parser splits it into callbacks.',
 'all splittings of all documents','parser chunking is environment dependent',[R+':CharacterDataHandler'])
p('C41','The whole input file reaches the parser',
 'For every file size the buffers passed to the parser concatenate to the file contents and exactly the last one is marked final.',
 'all file contents','file sizes are unbounded',[R+':ReadXMLInput'])
p('C42','Malformed baselines',
 'In a document of otherwise printed measurements: an element nested inside a measurement aborts on an assertion, or without assertions makes the measurement read disappear silently; a measurement element with a name but no type is undefined behaviour; a document truncated inside a measurement aborts on an assertion or throws without them; elements of other names outside measurements are skipped.',
 'all baseline documents','all documents',[R+':StartElementHandler',R+':EndElementHandler',R+':ReadXMLInput'])
p('C43','Baseline lookup',
 'With search directories given, a baseline present only in the current directory is not used (although the option is accepted only because it exists there), so the run fails or, when -1 is expected, succeeds without comparing. The baseline of a measured file is looked up by its last path component in the search directories, first match wins (a text file then matches iff the bytes are equal, image files never match), and if none has it the measurement does not match whatever the current directory holds. A file that may not be read counts as missing: a named measurement then differs even if the bytes agree. If a readable directory is where that file would be, the measurement raises an exception instead of counting a difference; in particular a file measured under a name ending in a slash is recorded without a name, and comparing it with a search directory reads that directory.',
 'all file systems, search lists and tests','all environments',[R+':Main',R+':CompareMeasurement',F+':SearchPathList'])
p('C44','Recorded document',
 'In record mode the output is the XML declaration, a comment with machine and time, the start tag of output, one line per measurement in order (element with name, type and escaped text; integers as the int they convert to, booleans as 0 or 1, files as their last path component), and the end tag; the end tag is missing, and the document unreadable, when the test throws. In any run no file other than the output file and those the test writes itself is changed.',
 'all tests, arguments and file systems','all programs',[R+':Main',R+':BeginMeasurement',R+':EndMeasurement'])

I='itktf/'
p('C45','Which pixels differ',
 'For two images of the same region, the filter counts exactly the pixels of the valid image whose squared difference (in double arithmetic) to the corresponding pixel of the test image exceeds the squared threshold and for which no test pixel inside the image within the radius in every coordinate has a squared difference within it (with IgnoreBoundaryPixels only those whose neighbourhood is inside); the output image has the closest difference there and zero elsewhere. For integer pixels up to 2^25 and an integer threshold this is exact; for all finite doubles every counted pixel really differs from all pixels in reach by more than the threshold, and every pixel doing so by more than rounding is counted. NaN pixels are never counted, and differences below about 1e-162 can go uncounted.',
 'all images of any dimension and size, radii, thresholds, thread splits and schedules','images are unbounded',[I+'itktfDifferenceImageFilter.txx:ThreadedGenerateData'])
p('C46','Count independent of threading',
 'The number of differing pixels and the output image depend neither on how the region is split among threads nor on the interleaving of their memory accesses; total and mean magnitude do not depend on the interleaving but do depend on the split (floating point addition).',
 'all partitions of the region and all schedules of memory accesses','schedules cannot be enumerated by testing',[I+'itktfDifferenceImageFilter.txx'])
p('C47','Tolerance monotonicity',
 'Raising the intensity tolerance or the radius never increases the count; the count lies between zero and the number of pixels; identical images, even with NaNs and infinities, count zero; exchanging the images keeps the count at radius 0 but not in general.',
 'all images, radii and thresholds','images are unbounded',[I+'itktfDifferenceImageFilter.txx'])
p('C48','CompareImage result',
 'CompareImage without a region returns the largest unsigned long for different sizes, throws for equal sizes at different start indices, and otherwise returns the number of differing pixels minus the tolerated number, never below zero. With any non-default region it compares the whole test image with the part of the baseline at the same indices (whatever the region is), and throws if the test image is not inside the baseline; given only a region it does so with all tolerances 0. For two files it throws if one cannot be read and otherwise compares the images without a region, ignoring spacing and origin.',
 'all images, regions and tolerances','all inputs',[I+'itktfRegression.h:CompareImage'])
p('C49','Image file verdict',
 'The image compare visitor accepts two files iff both can be read, sizes and spacings are equal, the origin of the baseline has no NaN, and the number of differing pixels is at most twice the tolerated number; the origin of the test image is never looked at.',
 'all image files and tolerances','all inputs',[I+'itktfCompareVisitor.cxx:RegressionTestImage'])
p('C50','Generated file names',
 'The k-th generated name of a run is the program name, an underscore, the 16-bit hash of the concatenated arguments in hexadecimal, an underscore, k in hexadecimal, a dot and the extension, appended to the root path; names with different numbers differ as paths (and in their last component if the extensions have no slash), for up to 2^32-1 names per run. The root is ignored if the program name is absolute. Runs whose arguments differ, even in more than the argument boundaries, may get the same names; if the concatenated arguments differ in exactly one character, they do not.',
 'all argument vectors, call counts, extensions and roots','all inputs',[I+'itktfRegression.cxx:GenerateFileName'])
p('C51','Image list arguments',
 'itktfImageCompare measures exactly the non-option arguments, in order, under the names ImageFile0, ImageFile1, ..., each with the last tolerances given before it (0 if none), and returns 0; at the first unknown option, missing or unparsable value it stops and returns 1 after having measured the images before it. Comparing (expected value 0) it exits with 0 iff all options are right and each image matches the baseline image at its position. Counts are decimal numbers up to 4294967295, but negative numbers wrap around and trailing characters are ignored.',
 'all argument vectors, image files and baselines','all inputs',[I+'itktfImageCompare.cxx'])
p('C52','Piped process measurement',
 'tfPipeToXML starts the child with exactly the arguments left by the driver, measures everything the child writes, from both streams, in order of arrival and independently of the pieces in which it arrives, as one plain text measurement named stdout, and returns the child\'s exit value, or -1 if it did not exit normally. Comparing returns 0 iff the text is that of the baseline and the value is the expected one. With -O a child that prints and ends alike passes against its recording; without -O the command line is written unescaped into the recorded document.',
 'all child output histories, argument vectors, files and baselines','all schedules of child output',['TestingFramework/tfPipeToXML.cxx'])
p('C53','Append means composition of name resolution',
 'For a non-empty path p and a non-empty relative f, resolving Append(p,f) from any current directory names the same object as resolving f from the directory named by p (and fails when that fails).',
 'all file trees, current directories and names','file systems and names are unbounded',[F+':PathName::Append'])
p('C54','Value returned by a measurement call',
 'While recording every measurement call returns 0; while comparing it returns 0 exactly when the baseline measurement at its position has the same name and type but a different value, and 1 otherwise, i.e. also when there is no such baseline measurement (documented is: 0 if the measurements are the same).',
 'all measurements, baselines and states','all inputs and histories',[R+':CompareMeasurement',R+':MeasurementTextPlain','TestingFramework/tfRegressionTest.h'])
p('C55','Tests on the ITK driver',
 'A test on the ITK driver behaves as on the base class (with the configured baseline directory appended to the search path) except for image measurements, which match iff the image rule (C49) with the tolerances in force accepts them. A differing image counts once and the call returns 0; standard output then gets, for equal sizes, a pair of lines per differing attribute, the number of differing pixels and three pictures, written into the output directory under the last component of the measured file (so that images of the same name overwrite each other\'s pictures); for different sizes only the two sizes; an unreadable image raises an exception after having been counted. A baseline that is only in the current directory is accepted as argument but not read.',
 'all tests, arguments, image files, baselines and file systems','all programs and inputs',[I+'itktfRegression.cxx',I+'itktfCompareVisitor.cxx',I+'itktfDifferenceVisitor.cxx'])
p('C56','Sizes, indexes, regions, points and matrices',
 'Measuring one makes exactly one numeric measurement per component, in order (row by row), named by the given name and the position(s), all names of one call being different, and returns the sum of what these return; a vector named m_1 and a matrix named m share names. Exact comparison of a size with a recorded size of the same name and dimension counts exactly the components that differ as 32 bit integers: sizes differing by a multiple of 2^32 are the same.',
 'all names, dimensions, values and baselines','all inputs',[I+'itktfRegression.h:MeasurementInsightSize',I+'itktfRegression.h:MeasurementInsightRegion',I+'itktfRegression.h:MeasurementInsightMatrix'])
p('C57','Record then compare with images',
 'If a test on the ITK driver is recorded and run again against the recorded document, retracing its measurements (each repeatable as in C39, each image agreeing within the tolerances with the file of the recorded name in the search directories), the status is that of the recording run, exactly one line per image comparison is printed besides what the test prints, and no file changes except those the test writes. In particular a test that only makes images under generated names passes if the recorded images are copied to the first search directory and none of the files written is one of them; if the comparing run overwrites the baseline image the comparison always succeeds, which can happen since two command lines can have the same hash.',
 'all tests, command lines, environments, image files and file systems','all programs and contents',[I+'itktfRegression.cxx',I+'itktfRegression.h:MeasurementInsightImage',I+'itktfCompareVisitor.cxx'])
p('C58','File status queries',
 'IsFile, IsDirectory and Exists hold iff the path (up to the first NUL, followed component by component from the root or the current directory) names a regular file, a directory, anything; IsReadable and IsWritable hold iff it names a file with that permission or a directory with that permission and permission to enter; SearchDirectory lists exactly the entries of a readable directory and the two dot entries, and nothing otherwise; after a successful SetCurrentDirectory the path . names what the path named.',
 'all paths and file trees','file systems and names are unbounded',[F+':PathName::IsFile',F+':PathName::IsReadable',F+':PathName::SearchDirectory'])
p('C59','Tests that ask the driver',
 'A test may ask, while it runs, for the compare mode, the expected value, the tolerance, the file names, the search directories and the state of files: its run is in every detail the run of some test that does not ask, the answer to the mode question being true in a run against a baseline and false while recording. Setting the output file name during a test changes only that name. Setting the baseline name during a comparison changes no measurement, but if at the normal end no readable file is found under the name set last, Main returns 0 although measurements differed; while recording it can turn the run into a comparison with an empty baseline.',
 'all tests, command lines, environments and states','what a test does with the answers is arbitrary',[R+':GetCompareMode',R+':SetInFileName',R+':SetOutFileName',R+':GetExpectedReturn',R+':Main'])
p('C60','Decimal text of floating point values',
 'The text stored for a finite double (float) is a decimal number within half a unit of its 16th (7th) digit; numbers further apart than one part in 10^15 (10^6) get different texts, closer ones may share a text; any decimal number in a baseline is read as the nearest double (float), the largest one if out of range; a value stored and read back is finite, keeps its sign and is within one part in 10^15 (10^6), and is the same if it has at most 16 (7) decimal digits. Infinities and NaN are read back as 0. (C++ library formatting in the C locale.)',
 'all finite doubles and floats, and all decimal texts','2^64 values',['TestingFramework/tfMeasurement.cpp:DoubleNumeric::SetValue','TestingFramework/tfMeasurement.cpp:FloatNumeric::GetValue'])
p('C61','Floating point values from recording to comparison',
 'Exactly compared, a value agrees with its own recording and disagrees with any value more than one part in 10^15 (10^6) away (but also -0 with 0). With relative tolerance t, recorded x and measured y agree if |x-y| is below t*max(|x|,|y|) by a margin of (1+t) parts in 10^14 (10^5) and differ if it is above by that margin and the larger one is at least 2^-51 (2^-22); values below the machine epsilon always agree; infinities and NaN count as 0. A second run of a test that measures texts, booleans, integers and any floating point values has the status of the run that recorded its baseline.',
 'all doubles, floats, tolerances, tests and environments','2^128 pairs of values',['TestingFramework/tfMeasurement.h:DoubleNumeric::IsEqualTolerant','TestingFramework/tfMeasurementVisitor.cpp',R+':MeasurementNumericDouble'])
p('C62','Settings made in the constructor',
 'Baseline, output file, search directories and expected value set in the constructor of a test have, if they would be accepted on the command line, exactly the effect of giving them as options in front of those given, so that options override them; a tolerance set there has the effect of setting it at the start of the test. They differ for an existing output file that cannot be written (set in the constructor the test fails, as an option it is ignored and the output goes to standard output) and for a baseline that is only in a search directory (found when set in the constructor, refused as an option).',
 'all settings, command lines, tests, files and environments','all programs and inputs',[R+':SetInFileName',R+':SetOutFileName',R+':SetInFileSearchPath',R+':SetExpectedReturn',R+':SetRelativeTolerance',R+':Main'])
p('C63','Text of a filter watcher',
 'The text a FilterWatcher writes is the concatenation, in order of the events, of one fixed text per start (with class name and comment), iteration, abort and end; progress writes nothing. Two histories of a filter give the same text, and so the same text measurement, iff they have the same starts, iterations, aborts and ends in the same order, whatever class name and comment are. The behaviour is undefined exactly if the filter iterates before it has started or 2^31 times after a start, or sends any event after the watcher was destroyed.',
 'all event histories, class names and comments','histories are unbounded',[I+'itktfFilterWatcher.h:FilterWatcher'])
p('C64','Changes between two versions of a test are found',
 'If one version of a test records a baseline and another version (other program, arguments, machine, files) is compared with it, both making exactly compared in-memory measurements, Main returns the number of positions at which name, type or text of the measurement are not those recorded at that position, if the new version returns the expected value, and else that value. So it returns 0 for an expected return iff the measurements are the recorded ones or the first of them. If a second version passes against the first recording and then records a new baseline, every version that passes against the new baseline passes against the old one; not every one that passes against the old one passes against the new one. Two versions that pass against the recording of each other make the same measurements.',
 'all pairs of tests, environments, command lines and contents','all programs and inputs',[R+':Main',R+':CompareMeasurement',R+':ReadXMLInput'])
p('C65','Measurement elements written by hand',
 'In a document of otherwise printed measurements, a DartMeasurement element with any XML attributes is read as the measurement with the class of its type (plain text for an unknown type), its name (empty if not given), encoding and compression (none if not given) and its text; the order of the attributes does not matter and other attributes are ignored. Without a type it is undefined behaviour if it has a name, encoding or compression, else it is skipped. A DartMeasurementFile element is a file measurement with name unknown and type text/plain unless given.',
 'all attribute lists, texts and surrounding documents','unbounded attribute lists and texts',[R+':ReadXMLInput',R+':start'])
p('C66','Report of a comparing run',
 'What a comparing run writes (to the output file or standard output) is exactly one report per mismatching measurement, in order, and nothing else; so it writes nothing iff there is no mismatch. A measurement without a partner of the same name and type is shown as an element under the name Unmatched NAME; a differing plain text as a plain text element Difference NAME with the line difference of the baseline text to the new one; any other differing measurement as an element Test NAME followed by the partner as Baseline NAME (a file with the path it was found under). The difference of a text to a baseline file is taken to the file name, not to its content. A measurement that throws writes nothing.',
 'all tests, command lines, baselines, files and environments','all programs and contents',[R+':DifferenceMeasurement',R+':UnmatchedMeasurement','TestingFramework/tfMeasurementVisitor.cpp:DifferenceVisitor'])
p('C67','Comparing images of any pixel type',
 'For images of any pixel type (numbers, vectors, complex numbers) the difference filter reports exactly the pixels whose distance (Euclidean for vectors) to each test pixel within the radius is above the threshold, and the number, the difference image, or the fact that the behaviour is undefined, do not depend on how the region is split among threads nor on their schedule. The difference written at a reported pixel is the one to the closest test pixel first met (the one at the same place, then by position); if it does not fit the pixel type of the image the behaviour is undefined (never for pixels of type double or vectors of them); the other pixels of that image are zero. So for unsigned images compared pixel by pixel the comparison is undefined iff some test pixel is brighter than the baseline by more than the threshold; it is always defined if no test pixel is brighter than a baseline pixel in its reach. CompareImage returns the number of reported pixels in excess of the allowed number; given a region it cuts the baseline to the whole test image whatever the region is, and raises an exception if that is not possible.',
 'all pixel types, images, radii, thresholds, splits and schedules','images, pixel types and schedules are unbounded',[I+'itktfDifferenceImageFilter.txx:ThreadedGenerateData',I+'itktfDifferenceImageFilter.h:SquaredTwoNorm',I+'itktfRegression.h:CompareImage'])
p('C68','Using one test object for several runs',
 'A further call of Main on an object, after any calls on it that ended by returning (also after exceptions), does with files, output and settings what it would do on a new object constructed with the names, search directories, tolerance and expected value the object has now (options of earlier calls stay in force: a later recording without -O replaces the document of an earlier one). The mismatches counted are those of all calls together, one more for each exception, so unless -1 is expected a run that would pass alone against its baseline returns the number of failures of all earlier calls and passes iff there were none. (No empty arguments.)',
 'all sequences of calls, tests, command lines, environments and changes of files between calls','histories of calls are unbounded',[R+':Main',R+':BeginMeasurement',R+':EndMeasurement'])
p('C69','Numerical changes between two versions of a test, with tolerances',
 'If one version of a test records a baseline and another is compared with it, both measuring texts, integers, booleans, floats and doubles in memory, and the new version returns the expected value, Main returns a number that is at least the number of measurements certainly rejected and at most the number of measurements not certainly accepted. Certainly rejected: beyond the last recorded one, another function or name, another text or boolean, an integer or floating point value outside the relative tolerance |x-y| <= t*max(|x|,|y|) by more than rounding can do (1e-14 relative for double, 1e-5 for float), or, compared without tolerance, another integer, a double differing by more than one part in 1e15 (float: 1e6). Certainly accepted: within the tolerance by that margin, magnitudes below 2^-53 (float: 2^-24), or without tolerance the same value. The tolerance is 2^-17 until the test sets another. Passing does not carry over from one baseline to another: values may drift out of the tolerance of the first in steps each of which passes.',
 'all pairs of tests, values, tolerances, environments, command lines','all programs and values',[R+':Main',R+':CompareMeasurement','TestingFramework/tfMeasurement.h:IsEqualTolerant',R+':SetRelativeTolerance'])
p('C70','Interrupted recordings are never taken for complete ones',
 'Stopped after any number of steps, a recording run has written a beginning of the document it would have written. If a recorded document lacks at least its last two characters, wherever it is cut (in the declaration, a tag, an escape sequence, a text, between measurements), every later run compared with it fails: it returns -1 (1 if -1 is the expected value), makes no measurement and writes nothing; if assertions are compiled in it may be aborted instead. The same holds for the document left by a test that ended with an exception. Without just the last newline the document reads as the complete one.',
 'all tests, crash points, environments, command lines','crash points and contents are unbounded',[R+':ReadXMLInput',R+':BeginMeasurement',R+':EndMeasurement',R+':Main'])
p('C71','Tests that use the whole protected interface: exact course of a run',
 'A test may measure, compare measurement objects of its own (CompareMeasurement), write to the output stream, ask for the mode, names, tolerance and search directories and set them, write files, and catch exceptions of a comparison. Main returns, and leaves the files and the screen, exactly as follows, and in no other way. A measurement while no baseline is open (or can be found by the name and directories set at that time) writes its line and answers 0; otherwise, and for an object of the test always, the next baseline element is consumed: without a partner of the same name and type one mismatch is counted, the object is renamed and written as Unmatched, the answer is 1; an equal partner answers 1; a different one counts one mismatch, answers 0 and writes the difference of the texts or both values, renaming the object; a failing comparison raises the exception and counts nothing. At the end the mismatches are returned if the test returned the expected value and a baseline can be found by the name and directories set at the end; after an exception, -1 (mismatches + 1 if -1 is expected and comparing). A recording gets its last line only after a normal end, and only if no baseline can be found by the name set. So the comment on CompareMeasurement (0 if the same) is wrong, a test that catches an exception passes, a test that adds a search directory in which the baseline is not passes whatever it measured, and an object compared while recording is written under a name the same test never matches. A Measurement function does what a derived class can write with GetCompareMode, CompareMeasurement and GetOutStream.',
 'all tests, baselines, file systems, command lines','all programs over the interface, unboundedly long',[R+':CompareMeasurement',R+':GetCompareMode',R+':PrependInFileSearchPath',R+':SetInFileSearchPath',R+':GetOutStream',R+':Main'])
p('C72','One itk::Regression object used for several runs',
 'An object of the ITK driver may be used for any number of runs, between which its settings (not a file name set to the empty one), the image tolerances and the files change and names are generated. Each run does with the files, the screen, the settings, the image tolerances and the generated names exactly what it would do on a new object with the present settings, tolerances and number of names; the mismatches counted are those of all the runs together, and (unless -1 is expected) the value returned is the one of this run alone with that count. So image tolerances set by one run stay in force in the next, which may pass only because of them. The k-th name generated during the life of the object consists of the program name, the hash of the arguments of the latest run and k: numbers go on from run to run, and all names generated with one program name and root path (or, compared by their last path component, with extensions without slashes) are different up to 2^32 - 1 names, even in runs with different arguments; but a repeated run does not get the same names. If the name of the output file is set to the empty one after a run that ended with an exception, the next run writes into that file, not on the screen.',
 'all histories of runs and calls on one object, all tests, command lines and file systems','all histories of any length',[I+'itktfRegression.cxx:Main',I+'itktfRegression.cxx:GenerateFileName',I+'itktfRegression.cxx:SetImageInsightTolerance',R+':Main',R+':BeginMeasurement'])
p('C73','A run whose output cannot be written to the end',
 'The output (the file given with -O, or standard output) may take only some number of bytes: a full disk, a quota, a closed pipe. If the test does not itself write or measure the output file and no baseline measurement names it, then for every such number the run returns exactly the value it returns when everything can be written, the output is the beginning of that length of the complete output, and every other file is the same. So a recording run succeeds although its document is incomplete (no error is reported), and a comparison counts its mismatches although the reports are lost; a later comparison with an incomplete document fails with -1 (or aborts with assertions), unless only the last newline is missing.',
 'all numbers of bytes the output takes, all tests, command lines, file systems and baselines','all points at which the output may fail',[R+':Main',R+':BeginMeasurement',R+':EndMeasurement',R+':GetOutStream',R+':CompareMeasurement'])
p('C74','A run depends on its baseline file only through the measurements read from it',
 'Two baseline files from which the same measurements are read give the same run: the same value, the same output, the same files (provided the test neither writes nor measures the baseline file and no measurement names it). In particular line ends do not matter: CR LF, LF and CR, in any mixture, are read as LF, also inside texts and names, so a baseline converted by a version control system or an editor stays valid, and recording, converting and comparing gives what recording and comparing gives. The text files named by measurements, however, are compared byte by byte: converting one of those is a mismatch.',
 'all pairs of baseline documents, all ways of converting line ends, all tests, command lines and file systems','all documents and conversions',[R+':BeginMeasurement',R+':ReadXMLInput',R+':CompareMeasurement','TestingFramework/tfMeasurement.cpp:FileMeasurement::Load'])
p('C75','Tests running at the same time',
 'Several test programs, with the plain or the ITK driver, run at the same time (ctest -j), each file access of one may fall between any two of another, and any of them may be stopped at any point. If no test changes, when run alone, a file another test uses when run alone, then under every schedule every test that ends returns what it returns alone, writes the same to standard output and leaves the files it uses as alone; a file changed by no test stays as it was; no test waits for another, and when all have ended every file and every result is as if they had run one after the other. A test changes only the value of -O and the files it writes itself; it uses only these, the values of -I and -P, the baseline in the directories of -P and, when comparing, the files it measures and those the baseline records (at their place or in the directories of -P). Not so if a test records the file another one compares with: both succeed in either order, but at the same time the comparison may fail. A test with the ITK driver also looks in the default baseline directory, and when two images differ it writes three images named after the file name of the measured image to the output directory; so two tests that measure images of the same file name in different directories overwrite each other\'s difference images.',
 'all file systems, all sets of tests with their command lines, all schedules, all points where they are stopped','the number of schedules is unbounded and the outcome of a test run depends on the scheduler',
 ['TestingFramework/tfRegressionTest.cpp:Main','TestingFramework/tfRegressionTest.cpp:ParseAndRemoveArguments','TestingFramework/tfRegressionTest.cpp:BeginMeasurement','TestingFramework/tfRegressionTest.cpp:CompareMeasurement','TestingFramework/tfRegressionTest.cpp:EndMeasurement','FileUtilities/PathName.cpp:SearchPathList','itktf/itktfDifferenceVisitor.cxx:DifferenceTestImage'])
p('C76','Objects allocated by a run are deleted exactly once, or lost by an exception',
 'However often a test object is used, whatever failed before and when it is destroyed, the driver deletes no object twice and uses none after deletion (streams, measurements read from the baseline, visitors, the XML parser). After runs in which no exception was thrown exactly the objects from before are alive. A run in which Main catches an exception leaves behind, even after the test object is destroyed, at most: the two streams (so the files stay open and buffered output is not written out), and either the parser with the measurements it had created, or the measurement being compared and the visitor comparing it. So an object used for n runs that throw leaves n streams: it runs out of file handles.',
 'all tests, command lines, file systems, baselines (also documents the parser model does not describe), all histories of runs and changes of settings on one object','all histories and all points at which an exception is thrown; leaks are not visible in results',
 [R+':Main',R+':BeginMeasurement',R+':EndMeasurement',R+':CompareMeasurement',R+':DifferenceMeasurement',R+':ReadXMLInput',R+':ReadXMLInputFree',R+':start',R+':end',R+':~RegressionTest'])
p('C77','What the driver says on standard error',
 'The messages a test object writes to standard error are, in this order: one for every output file named that exists and may not be written; the faults of the baseline document (wrong root, unknown element, attribute or measurement type, element nested too deep: one message per fault of a start tag, no others), then the XML error if there is one; for every measurement the remarks about it and its partner (unsupported compression or encoding, bad base64, a file that cannot be opened, an unknown file type: exactly when this is so); last, exactly when an exception ends the run, that exception, with its reason if it is the driver that threw. A baseline is read in silence exactly when it is in the dialect of the framework; then each of its elements becomes its measurement. A repeatable test compared with its own recording says nothing. A difference is not reported there, and a complaint does not make the test fail.',
 'all tests, command lines, file systems, baselines, search directories and environments','all documents and all sequences of measurements; tests compare status and standard output only',
 [R+':Main',R+':ParseAndRemoveArguments',R+':BeginMeasurement',R+':ReadXMLInput',R+':start',R+':CompareMeasurement','TestingFramework/tfMeasurement.cpp:UpdateContentAsData','TestingFramework/tfMeasurement.cpp:Load','TestingFramework/tfMeasurement.cpp:IsEqual'])
p('C78','The memory behind measurement objects',
 'A program creates, copies, assigns, destroys, changes, reads and compares measurement objects in any order, an object may be both arguments of an operation, and it keeps the pointers it gets for the data of an object. Every operation has its value by the comparison and conversion rules of the object alone and leaves the values of all other objects as they are; no block is freed twice. A program without base64 does nothing undefined as long as it reads through pointers that are valid. A pointer to the data of an object stays valid, with the same bytes, until that object gets a new text or new data, is assigned to or destroyed; then it is invalid, except a pointer to the text after new data that is not encoded, and a pointer to a buffer after an assignment, which is memory nobody frees. To set the data of an object from its own data pointer is undefined exactly when the data are not its text. What is allocated without an owner is known at every point: one block for every assignment to an object that has a data buffer (also of the object to itself), and the objects and buffers of file comparisons that throw; nothing else. Without these, all memory belongs to living objects and destroying them frees it all.',
 'all sequences of operations, objects, texts, data, pointers kept, file contents and system environments','all histories of operations and all aliasings of objects and pointers; leaks and dangling pointers are not visible in results',
 ['TestingFramework/tfMeasurement.h:GetContentAsData','TestingFramework/tfMeasurement.cpp:SetContentAsData','TestingFramework/tfMeasurement.cpp:UpdateContentAsData','TestingFramework/tfMeasurement.cpp:DeleteContentAsData','TestingFramework/tfMeasurement.cpp:operator=','TestingFramework/tfMeasurement.cpp:Load','TestingFramework/tfMeasurement.cpp:IsEqual'])
p('C79','The line difference uses memory safely and gives it back',
 'Diff works on five arrays from new[]: the indices of the lines of each text, the identifiers of the lines of each text and the diagonals. For two texts of fewer than 2^31 - 8 lines together in which no two different lines have the same hash value, and if the five requests are granted, every read is of an element that was written before, in a live array and (except for the reads named in C30) inside it; every array is freed exactly once; and after the call the memory is exactly as before, no block of anybody else having changed. What is printed is what the list version of the model prints (so it is a patch, C34), also for the texts with colliding hash values, where the end of the table is dereferenced. If one of the five requests is refused the call ends with std::bad_alloc, and the arrays it had got before are never freed.',
 'all pairs of texts, contents of the heap, names of blocks, sets of refused requests, builds with and without assertions, and values of the elements outside the arrays',
 'A test frees what it allocated on the texts it tries; leak and bounds checkers see one run, and a refused request in the middle of the call is not produced by a test.',
 ['TestingFramework/tfDiff.cpp: Diff, BuildLines, FindEditMidPoint, GenerateEditList, PrintLines, struct fumoffu'])
p('C80','Interrupted recordings of the ITK driver are never taken for complete ones',
 'A test of the ITK driver that records to a file, with image measurements, generated names and printed text, and is stopped after any number of steps has written a beginning of the document it would have written, and printed a beginning of what it would have printed. If a recorded document lacks at least its last two characters, wherever it is cut, every later run compared with it fails: it returns -1 (1 if -1 is the expected value), makes no measurement, reads no image, writes no picture and prints nothing; if assertions are compiled in it may be aborted instead. The same, without the abort, holds for the document left by a test that ended with an exception. Without just the last newline the document reads as the complete one.',
 'all tests, images, crash points, environments, command lines','crash points and contents are unbounded',[R+':ReadXMLInput',R+':BeginMeasurement',R+':EndMeasurement',I+'itktfRegression.cxx:Main',I+'itktfRegression.cxx:MeasurementInsightFileImage'])
p('C81','A run of the ITK driver whose output cannot be written to the end',
 'If the output (the output file, or standard output, on which the test and the image comparison print too) takes only some number of bytes, a run of the ITK driver, recording or comparing, returns exactly what it would return otherwise; the output is the beginning of that length, and every other file, the pictures of differing images included, and with an output file everything printed, is the same. So success of a recording run does not mean that its document is complete; but every run compared with such a document fails with -1 (1 if -1 is expected) or is aborted by an assertion, making no measurement, unless only the last newline is missing. (Assumed: the test does not write the output file itself; in a comparing run it does not measure it, no baseline file is it, and no picture has its name.)',
 'all tests, images, numbers of bytes, environments, command lines, baselines','a disk may get full after any number of bytes of any output',[R+':GetOutStream',R+':BeginMeasurement',R+':EndMeasurement',I+'itktfRegression.cxx:Main',I+'itktfCompareVisitor.cxx:VisitMeasurementFile',I+'itktfDifferenceVisitor.cxx:DifferenceTestImage'])
p('C82','Changes between two versions of a test with images are found',
 'If one version of a test on the ITK driver records a baseline and another version (other program, arguments, machine, files) is compared with it, both making images and exactly compared in-memory measurements and the new one not reacting to the results, Main returns the number of measurements that have changed, if the new version returns the expected value, and else that value. A measurement is unchanged if one of the same name and kind was recorded at its position and the text is the same, or, for an image, the image agrees within the tolerances then in force with the file that the search directories have under the recorded file name. The exception: a changed image of the recorded name whose file or baseline file cannot be read for the report ends the test, which fails with -1. In particular, for a test that makes images under generated names, with the recorded files copied to the first search directory and no file written being one of them, Main returns the number of positions at which the image or its name has changed or no image was recorded.',
 'all pairs of tests, environments, command lines, images and file contents','all programs, images and inputs',[R+':Main',R+':CompareMeasurement',I+'itktfRegression.cxx:MeasurementInsightFileImage',I+'itktfCompareVisitor.cxx:Compare'])
p('C83','Everything a comparing run of the ITK driver prints and writes',
 'A comparing run of the ITK driver that ends prints, in order, what the test prints itself and for each measurement exactly one report, determined by the measurement, its partner at the same position of the baseline, the tolerances then in force and the files at that moment. A measurement that is no image: the report of C66, to the output. An image without a partner of its name and kind: the element "Unmatched", to the output. An image with a partner: a line naming the two files; if they differ beyond the tolerances, also the two sizes if these differ, else the attributes that differ, the number of differing pixels and three pictures (difference, baseline, test), which are written as files; if one of the two cannot be read for that, the test ends there with an exception, after that much of the report. The files left by the run are those written by the test, those pictures and the output file, the number of mismatches is one per report of a difference, and the returned status follows from it. With an output file that neither the test nor a picture overwrites, the file holds the reports that go to the output and nothing else, and standard output holds the others. So a differing image leaves no trace in the output file: it may stay empty although the test fails.',
 'all tests, images, baselines, environments, command lines, stores','all programs, contents and histories',[R+':Main',R+':CompareMeasurement',R+':UnmatchedMeasurement',R+':DifferenceMeasurement',I+'itktfCompareVisitor.cxx:VisitMeasurementFile',I+'itktfDifferenceVisitor.cxx:DifferenceTestImage'])
p('C84','What the ITK driver and the image comparison tool say on standard error',
 'What a test object of the ITK driver writes to standard error is, in this order: the refusals of output files and the faults of the baseline document, as for the basic driver; for each measurement the remarks about it (those of the basic driver for basic measurements); last, once, the exception that ended the run. About an image with a partner: if the baseline image, or else the test image, cannot be read, one message naming that file; if both are read, agree or differ in size, nothing; otherwise for each of the three pictures (difference, baseline, test, in this order) one message if rescaling fails and one if the picture cannot be made or stored, judged by the files of that moment. About an image without partner: nothing. A recording run says nothing but refusals and its exception; a run that does not start says why. The remarks are determined by the run, and if nothing is said about a matched image both files were read. The message about an unreadable baseline image does not end its line (not so: every message is a line). itktfImageCompare says what a test says that measures its images with the tolerances set before each, and then, unless an exception ended it, its own word: the usage if it got no argument, the one objection (a missing or malformed number naming option and value, or an unknown option) if an argument ended it, otherwise nothing.',
 'all tests, images, baselines, tool arguments, texts of ITK exceptions, environments, command lines, stores','all contents and histories; tests look at the status only',[R+':Main',I+'itktfCompareVisitor.cxx:RegressionTestImage',I+'itktfDifferenceVisitor.cxx:ImageThing',I+'itktfDifferenceVisitor.cxx:DifferenceTestImage',I+'itktfImageCompare.cxx:itktfImageCompare'])
p('C85','tfPipeToXML: what it says on standard error, what it leaves allocated, when it does not end',
 'Whatever the process library gives for the command: if the child closes its output streams, status, files and standard output are those of C52 (the array with the command is filled exactly, ended by the null pointer, never written outside). On standard error a recording run says the refusals of output files, then that the output file cannot be opened, or how the child ended (nothing if it exited). A comparing run that does not get to its test says why, starts no child and allocates nothing. One that does says the refusals, the faults of the baseline document, the remarks about the measurement "stdout" and its partner (C77), then how the child ended; if comparing the two raises an exception, that is said instead. The array of the command is never freed, the process object only if comparing raises nothing. A child that never closes its streams keeps the run forever. Called without any argument, not even a program name, it writes outside the array. So a killed child is not always reported, and the status does not tell it from one that returned -1.',
 'all behaviours of the process library (chunks and end of the child), environments, stores, option lists and arguments',
 'the messages and allocations depend on the child, the baseline and the file system together; leaks and endless waits are not observed by tests',
 ['TestingFramework/tfPipeToXML.cxx: PipeTest::Test, main', R+': Main'])
p('C86','Drivers count mismatches and XML nesting in a 32-bit int',
 'The drivers count mismatches (starting at one for the run itself) and the nesting of XML elements in signed 32-bit integers. A recording run, and a comparing run that does not get to its test with a baseline not nested deeper than 2147483647 elements, behave exactly as with unbounded counters, whatever is measured. A comparing run that gets to its test and ends behaves exactly as with unbounded counters if its baseline is at no point nested deeper than 2147483647 elements and there are fewer than 2147483647 mismatches; if either bound is passed the run is undefined (the driver does not check). Both bounds are reached by ordinary inputs of that size: a test that measures 2147483647 things its baseline lacks, and a well-formed document of 2147483648 nested elements, which otherwise reads as no measurements. The same holds for the ITK driver.',
 'every environment, file system, command line, test program (any number of measurements), baseline (any nesting), plain and ITK driver',
 'The bounds lie at two thousand million mismatches or nested elements; a test that gets there runs for hours and needs gigabytes.',
 [R+': RegressionTest::Main, UnmatchedMeasurement, DifferenceMeasurement, StartElement, EndElement', 'TestingFramework/tfRegressionTest.h: inputUnmatched', I+'itktfRegression.cxx'])
p('C87','ITK tests that use the whole protected interface run exactly as their course says',
 'A test on the ITK driver may compare objects of its own with CompareMeasurement (image files among them), catch the exceptions of measurements, write to GetOutStream and to the screen, generate file names, change the image tolerances and every setting of the base class, write files and look at everything. Against a baseline such a run ends with a status, files and screen exactly if its course, read off step by step, gives these: an object that is an image file and whose partner has the same name and type is compared and reported as an image, everything else as by the plain driver; an image is one mismatch if it has no partner, differs or cannot be read, the latter with an exception which the test may catch without taking the mismatch back. A recording run writes an element for each measurement between first lines and last line. The course is determined. Tests that compare no image objects run exactly as on the plain driver, the tests that use only the measurement functions exactly as before, and MeasurementInsightFileImage is what a derived class can write with the functions of the base class. CompareMeasurement answers 0 for a different image and 1 for the same one or one without a partner, the opposite of its comment.',
 'every environment, image library, file system, command line and test program (a tree of calls that may depend on every value seen), baseline',
 'A test is an arbitrary program over the interface; its values, exceptions and objects decide what it does next, so finitely many tests say nothing about the others.',
 [I+'itktfRegression.cxx', I+'itktfCompareVisitor.cxx', I+'itktfDifferenceVisitor.cxx', 'TestingFramework/tfRegressionTest.h: CompareMeasurement, GetOutStream, GetCompareMode', R+': CompareMeasurement, Main'])
p('C88','The message about an exception names the most derived standard class it is an unambiguous public instance of',
 'If a test (or the framework during the run) throws an object whose class is, or has as unambiguous public base, one of the twelve classes std::length_error, domain_error, out_of_range, invalid_argument, bad_alloc, bad_cast, range_error, overflow_error, underflow_error, runtime_error, logic_error and exception, Main writes the name of such a class and the quoted text of what(); no other of the twelve that the object is an instance of is derived from the one named. In every other case it writes "unknow exception": values that are no objects, classes without such a base, and also classes that inherit std::exception twice (ambiguous) or privately. With single public inheritance the name is that of the nearest of the twelve going up from the class of the object. This is the last thing written on the standard error by a recording run and, if the test threw, by a comparing run. What is thrown makes no difference to the value returned, the files and the screen. Only an exception whose what() itself fails ends the process, after "terminated!" has been written.',
 'every class hierarchy (multiple, virtual, private inheritance), every text, every environment, command line, test program and baseline',
 'Class hierarchies of tests are unlimited; the order of twelve handlers matters for every pair of them.',
 [R+': CATCH_STDEXCEPTION, Main (297-331), _UnexpectedHandler, _TerminateHandler'])

p('C89','Tests that read from GetInStream: standard input when recording, nothing when comparing',
 'In a recording run a test that reads lines or characters from GetInStream() gets the text of the standard input from its beginning, in order and without gaps, also between calls of the framework: reading lines until it fails gives exactly the lines of the text (the last one may lack its newline), reading numbers of characters gives consecutive pieces. In a comparing run the stream is the baseline, already read to its end: every reading fails and gives nothing, whatever is on the standard input and in the baseline. In both cases the run ends, prints and writes exactly as the run of the test in which each reading is replaced by what it gives. A comparing run therefore does not depend on the standard input at all, and a test that measures a line of its input disagrees with its own recording made with the same input. Tests that do not read run as before.',
 'every environment, file system, standard input text, command line of accepted options, and test program (a tree of calls and readings that may depend on every value seen)',
 'What is read depends on the mode and on all previous readings; inputs and programs are unlimited.',
 [R+': GetInStream, BeginMeasurement, ReadXMLInput (735-766)','TestingFramework/tfRegressionTest.h: GetInStream'])

p('C90','When a comparing run comes to an end',
 "Main comes back. A comparing run whose baseline was read returns a status - the one that counts the mismatches - provided that every measurement of the baseline that has the name and type of a measurement the test makes can be compared with it: data of the baseline is not declared base64; for a tolerant comparison the text of the baseline is a number and, for integers, the two numbers and their difference are ints other than the least one; for plain text the two texts have fewer than 2^31-8 lines and no two different lines with the same hash. Everything else - missing files and directories in place of files, wrong types, mismatches of any number, exceptions of the test, files it overwrites, surplus and missing measurements - makes the run fail but never keeps it from returning. The same holds for the ITK driver, where image comparisons need no proviso: images that cannot be read, or of different geometry, never keep the run from returning. A run whose output or baseline cannot be opened, or whose baseline is not well-formed, returns -1 (0 or 1 if -1 is expected). The reader of baselines never runs forever, and compiled with NDEBUG returns the measurements or the error for every document whose data elements all have a type. The provisos are needed: for an integer -2147483648, integers too far apart, a blank number, and base64 data in a well-formed baseline the behaviour of the run is undefined.",
 'every environment, file system, command line of accepted options, baseline and test program',
 'A crash can hide in any combination of a baseline, a measurement and a state of the file system; that there is none outside the listed causes is a statement about all of them.',
 [R+': Main, CompareMeasurement, DifferenceMeasurement, ReadXMLInput','TestingFramework/tfMeasurementVisitor.cpp: CompareMeasurementVisitor','TestingFramework/tfMeasurement.h: IsEqualTolerant',I+'itktfRegression.cxx',I+'itktfCompareVisitor.cxx: RegressionTestImage'])

p('C91','ITK tests that read from GetInStream',
 'A test derived from itk::Regression that reads lines or characters from GetInStream gets, in a recording run, the text of the standard input from its beginning, and in a comparing run nothing (every reading fails, whatever is on the standard input), and the run ends, prints and writes exactly as the run of the test in which each reading is replaced by what it gives - also where names of images to measure, tolerances or extensions of generated names are taken from what was read. So a comparing run does not depend on the standard input, and a test that reads the name of the image it measures is recorded but can never pass against a baseline it would pass if told the name otherwise. A test without image measurements does on the ITK driver what it does on the plain one.',
 'every environment, file system, standard input text, command line of accepted options and ITK test program (a tree of calls and readings that may depend on every value seen)',
 'What is read depends on the mode and on all previous readings; inputs and programs are unlimited.',
 [R+': GetInStream, BeginMeasurement, ReadXMLInput (735-766)',I+'itktfRegression.h',I+'itktfRegression.cxx'])
out=os.path.join(os.path.dirname(os.path.abspath(__file__)),'..','properties.jsonl')
with open(out,'w') as f:
    for x in P: f.write(json.dumps(x)+'\n')
print(len(P))
