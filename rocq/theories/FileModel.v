(** Model of scenario files: compile_scenario, uncompile_scenario and get_test_scenario_from_file (testing.py:931-1008).
    Pickling, SHA-512, bzip2 and base64 are Python's: a record of functions.  What is pickled is the saved form of
    TestModel.v; the setup and teardown functions are not part of it (testing.py:853-854, 861-862).  Text is a list of ASCII
    codes.  Left out: errors of the file system, code run by import. *)
From Verif Require Import Base EthAddrModel FwModel TestModel StartModel.

Record codecs := mkCodecs {
  dumps : saved -> bytes; loads : bytes -> res saved;
  sha512 : bytes -> bytes;
  bz_pack : bytes -> bytes; bz_unpack : bytes -> res bytes;
  b64_text : bytes -> text; b64_bytes : text -> res bytes }.
(** A scenario with its setup and teardown functions (numbers stand for functions). *)
Record hscen := mkH { h_scen : scen; h_setup : option Z; h_teardown : option Z }.
(** str.rstrip(chars): drop trailing characters that are among [chars]. *)
Fixpoint drop_any (chars s : text) : text := match s with [] => [] | c :: r => if zmem c chars then drop_any chars r else s end.
Definition rstrip (chars s : text) : text := rev (drop_any chars (rev s)).
Definition dot_srpy : text := [46; 115; 114; 112; 121].
(** 941, 945-946: the name of the file written. *)
Definition out_name (file : text) (out : option text) : text :=
  match out with Some (c :: r) => c :: r | _ => rstrip [46; 112; 121] file ++ dot_srpy end.
(** 942-949 *)
Definition compiled_text (L : codecs) (d : saved) : text := b64_text L (bz_pack L (sha512 L (dumps L d) ++ dumps L d)).
(** Files: name and contents, latest first. *)
Definition files := list (text * text).
Fixpoint fget (fs : files) (n : text) : option text := match fs with [] => None | (k, t) :: r => if bytes_eqb k n then Some t else fget r n end.
(** compile_scenario, given the scenario in the module: the name returned and the files afterwards. *)
Definition compile_scenario (L : codecs) (h : hscen) (file : text) (out : option text) (fs : files) : res (text * files) :=
  ' (d, _) <- scen_save (h_scen h);; Ok (out_name file out, (out_name file out, compiled_text L d) :: fs).
(** uncompile_scenario (963-973). *)
Definition uncompile_text (L : codecs) (t : text) : res hscen :=
  z <- b64_bytes L (FwModel.strip t);; x <- bz_unpack L z;;
  if bytes_eqb (sha512 L (skipn 64 x)) (firstn 64 x) then d <- loads L (skipn 64 x);; s <- scen_load d;; Ok (mkH s None None) else Err EValue.
(** get_test_scenario_from_file (975-1008): [KModule] stands for importing the file. *)
Inductive kind := KModule | KCompiled.
Definition kind_of (file : text) : kind := if ends_with dot_py file then KModule else if ends_with dot_srpy file then KCompiled else KModule.
Definition read_compiled (L : codecs) (fs : files) (file : text) : res hscen :=
  match fget fs file with None => Err EExc | Some t => uncompile_text L t end.
