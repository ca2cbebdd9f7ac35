(** Model of the command line: what swyard.py:main (21-87) does with parsed arguments, start_framework (syinit.py:50-137),
    and how import_or_die (importcode.py:7-52) finds the file to load.  The threads started are those of UserModel.v.
    Left out: argparse itself, logging, colours, os.geteuid, the debugger, Windows, a file called just ".py". *)
From Verif Require Import Base EthAddrModel FwModel UserModel.

(** ** The parsed arguments.  An option that may be given several times is [] when it is not given (argparse gives None). *)
Record args := mkArgs { g_usercode : option text; g_codearg : text; g_compile : list text; g_tests : list text; g_dryrun : bool;
  g_fwconfig : list text; g_app : option text; g_nohandle : bool; g_cli : bool; g_topology : option text; g_listif : bool }.
(** What the arguments meet: whether interfaces are left to use, and whether the user's code raises. *)
Record env := mkEnv { e_devs : bool; e_raises : bool }.
(** Truth of an optional string, of a list. *)
Definition truthy (o : option text) : bool := match o with Some (_ :: _) => true | _ => false end.
Definition given {A} (l : list A) : bool := match l with [] => false | _ => true end.
(** syinit.py:93-96: the firewall rules handed on. *)
Definition fw_rules (a : args) : list text :=
  if truthy (g_app a) then [] else if given (g_fwconfig a) then g_fwconfig a else [t_all].
(** Firewall(...) works when every rule can be read (hostfirewall.py:110-183; test mode and Linux read the same rules). *)
Definition cfg_of (a : args) (e : env) : cfg :=
  mkCfg (truthy (g_app a)) (given (g_compile a)) (given (g_tests a)) (truthy (g_usercode a)) (e_devs e)
        (forallb (fun r => is_ok (test_rule r)) (fw_rules a)) (e_raises e) (g_nohandle a) (g_dryrun a).
(** What happens: usage text, list of interfaces, an exception, the simulator (always with an empty topology), or the threads
    of UserModel.v with the given firewall rules, arguments for the user's code, and scenario files compiled. *)
Inductive outcome :=
| OUsage | OListed | ORaise (e : exn) | OSim
| OStart (c : cfg) (rules : list text) (ca : list text * tdict) (compiled : list text).
(** start_framework.  load_from_file is not imported by syinit.py (74), and only FileNotFoundError is caught. *)
Definition start_framework (a : args) (e : env) : outcome :=
  if g_listif a then OListed
  else match parse_codeargs (Some (g_codearg a)) with
       | Err x => ORaise x
       | Ok ca =>
           if g_cli a then if truthy (g_topology a) then ORaise EName else OSim
           else OStart (cfg_of a e) (fw_rules a) ca (g_compile a)
       end.
(** main (82-87). *)
Definition swyard (a : args) (e : env) : outcome :=
  if (match g_usercode a with None => true | Some _ => false end && negb (given (g_compile a))) && negb (g_listif a) then OUsage
  else start_framework a e.
(** The instructions of the main thread. *)
Definition steps (o : outcome) : list minstr := match o with OStart c _ _ _ => main_prog c | _ => [] end.

(** ** import_or_die
    A directory is a text; the file system says which names a module found in a directory defines.  The search path starts
    with whatever Python searches first (built-in modules, the script's directory, the standard library).  Left out: modules
    inside packages, the finders' caches, code that changes sys.path or sys.modules. *)
Definition fs := text -> text -> option (list text).     (* directory, module name: the names it defines *)
Record py := mkPy { py_path : list text; py_mods : list (text * list text) }.   (* sys.path, sys.modules *)
(** An absolute, normalised path, split at its last slash; and the name without .py. *)
Fixpoint last_slash (s : text) (dir base : text) : text * text :=   (* [dir]: up to the last slash so far, [base]: after it *)
  match s with
  | [] => (dir, base)
  | c :: r => if c =? 47 then last_slash r (dir ++ base ++ [47]) [] else last_slash r dir (base ++ [c])
  end.
Definition dot_py : text := [46; 112; 121].
Fixpoint ends_with (suf s : text) : bool := bytes_eqb suf s || match s with [] => false | _ :: r => ends_with suf r end.
Definition cut_py (s : text) : text := if ends_with dot_py s then firstn (length s - 3) s else s.
Definition look (f : fs) (path : list text) (name : text) : option (list text) :=
  fold_right (fun d r => match f d name with Some l => Some l | None => r end) None path.
Fixpoint mget (ms : list (text * list text)) (n : text) : option (list text) :=
  match ms with [] => None | (k, l) :: r => if bytes_eqb k n then Some l else mget r n end.
(** Lines 23-36: a module of that name that is loaded already is loaded again (its old names stay), otherwise it is
    imported; either way Python searches its path for the name, and nothing but the name is used. *)
Definition load (f : fs) (p : py) (name : text) : res (list text) :=
  if zmem 46 name then Err EImport
  else match look f (py_path p) name with
       | None => Err EImport
       | Some l => Ok (l ++ match mget (py_mods p) name with Some old => old | None => [] end)
       end.
(** Directories are kept without the final slash, except the root. *)
Definition trim_dir (d : text) : text := if bytes_eqb d [47] then d else firstn (length d - 1) d.
Definition import_or_die (f : fs) (p : py) (file : text) (names : list text) : py * res (option text) :=
  let full := cut_py file in
  let '(d, base) := last_slash full [] [] in
  let dir := trim_dir d in
  let path := if given dir && negb (existsb (bytes_eqb dir) (py_path p)) then py_path p ++ [dir] else py_path p in
  let p1 := mkPy path (py_mods p) in
  match load f p1 base with
  | Err e => (p1, Err e)
  | Ok l => (mkPy path ((base, l) :: py_mods p), entry names l)
  end.
(** Which directory the module came from. *)
Fixpoint found_in (f : fs) (path : list text) (name : text) : option text :=
  match path with [] => None | d :: r => match f d name with Some _ => Some d | None => found_in f r name end end.
