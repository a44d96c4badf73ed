(** Model of src/dispersion/scripts/setup_dispersion.py, and of catalogue.py's rebuild_catalogue.
    The terminal is the list of lines that the user will type; printing is not modelled. *)
From Verif Require Import PyBase PyStr XReal PathModel ConfigModel DiskModel.
Open Scope string_scope.
Open Scope list_scope.

(** ** programs that read lines and use the file system *)
Record sys := mkSys { typed : list string; disk : fsys }.
Definition io (A : Type) := sys -> res A * sys.
Definition ret {A} (a : A) : io A := fun s => (Ok a, s).
Definition fail {A} (e : exn) : io A := fun s => (Raise e, s).
Definition ibind {A B} (m : io A) (f : A -> io B) : io B :=
  fun s => match m s with (Ok a, s') => f a s' | (Raise e, s') => (Raise e, s') end.
Notation "'let!' x := m 'in' k" := (ibind m (fun x => k)) (at level 200, x name, k at level 200).
Definition pure {A} (r : res A) : io A := fun s => (r, s).
Definition on_disk {A} (f : fsys -> res A * fsys) : io A :=
  fun s => let (r, fs) := f (disk s) in (r, mkSys (typed s) fs).
Definition change_disk (f : fsys -> res fsys) : io unit :=
  fun s => match f (disk s) with Ok fs => (Ok tt, mkSys (typed s) fs) | Raise e => (Raise e, s) end.
Definition look {A} (f : fsys -> A) : io A := fun s => (Ok (f (disk s)), s).

(** setup_dispersion.py:60-73 ask. A validator may raise and may change the file system. *)
Fixpoint ask_from (validator : fsys -> string -> res bool * fsys) (default : string) (answers : list string) (fs : fsys)
  : res string * sys :=
  match answers with
  | [] => (Raise EOFError, mkSys [] fs)
  | a :: rest =>
      let user_input := if String.eqb a "" then default else a in
      match validator fs user_input with
      | (Ok true, fs) => (Ok user_input, mkSys rest fs)
      | (Ok false, fs) => ask_from validator default rest fs
      | (Raise e, fs) => (Raise e, mkSys rest fs)
      end
  end.
Definition ask (validator : fsys -> string -> res bool * fsys) (default : string) : io string :=
  fun s => ask_from validator default (typed s) (disk s).

(** setup_dispersion.py:75-89 get_confirmation *)
Fixpoint confirmation_from (answers : list string) (fs : fsys) : res bool * sys :=
  match answers with
  | [] => (Raise EOFError, mkSys [] fs)
  | a :: rest =>
      if String.eqb a "y" || String.eqb a "yes" then (Ok true, mkSys rest fs)
      else if String.eqb a "n" || String.eqb a "no" then (Ok false, mkSys rest fs)
      else confirmation_from rest fs
  end.
Definition get_confirmation : io bool := fun s => confirmation_from (typed s) (disk s).

(** setup_dispersion.py:34-57 ask_and_confirm *)
Definition ask_and_confirm (validator : fsys -> string -> res bool * fsys) (default : string) : io (string * bool) :=
  let! user_input := ask validator default in
  let! confirmed := get_confirmation in
  ret (user_input, confirmed).

(** setup_dispersion.py:215-216 and 220-221: the loops of main. Every turn reads at least two
    lines, so the number of typed lines bounds the number of turns; when they are used up the next
    question raises EOFError. *)
Fixpoint until_confirmed (turns : nat) (question : io (string * bool)) : io string :=
  match turns with
  | O => fail EOFError
  | S n => let! answer := question in
           if snd answer then ret (fst answer) else until_confirmed n question
  end.
Definition confirm_loop (question : io (string * bool)) : io string :=
  fun s => until_confirmed (S (length (typed s))) question s.

(** catalogue.py:32-42 (rebuild_catalogue): the question; only "y" and "n" are answers *)
Fixpoint rebuild_from (answers : list string) (fs : fsys) : res bool * sys :=
  match answers with
  | [] => (Raise EOFError, mkSys [] fs)
  | a :: rest =>
      if String.eqb a "n" then (Ok false, mkSys rest fs)
      else if String.eqb a "y" then (Ok true, mkSys rest fs)
      else rebuild_from rest fs
  end.
Definition ask_rebuild : io bool := fun s => rebuild_from (typed s) (disk s).

Section Setup.
Variable creatable : string -> bool.
Variable home : option string.
Variable package_dir : string.
Variable yaml_parse : string -> res cfg.
Variable yaml_dump : cfg -> string.
(** the name of the temporary directory that valid_file_name creates *)
Variable tmp : string.
(** the texts of the two example files (setup_dispersion.py:122-139 make_example_txt and 141-166
    make_example_yaml; see ExampleModel for what is written) *)
Variable example_txt example_yaml : string.
(** setup_dispersion.py:179-181: import of GitPython and Repo.clone_from *)
Variable clone : fsys -> string -> res fsys.
(** Catalogue(config=conf, rebuild='All'): the text that save_to_file will write *)
Variable catalogue_text : fsys -> cfg -> res string.

(** setup_dispersion.py:12-21 get_root_dir, 23-32 get_catalogue_name. The default is a string in
    every configuration that default_config returns. *)
Definition abs_validator (fs : fsys) (p : string) : res bool * fsys := (Ok (isabs p), fs).
Definition get_root_dir (conf : cfg) : io (string * bool) :=
  let! v := pure (dlookup conf "Path") in
  let! default := pure (check_str v) in
  ask_and_confirm abs_validator default.
Definition get_catalogue_name (conf : cfg) : io (string * bool) :=
  let! v := pure (dlookup conf "File") in
  let! default := pure (check_str v) in
  ask_and_confirm (try_file_name creatable tmp) default.

(** setup_dispersion.py:117-120 install_userdata *)
Definition install_userdata (module_dir : string) : io bool :=
  let! _ := change_disk (fun fs => open_w creatable fs (path_join module_dir "example_file.txt") example_txt) in
  let! _ := change_disk (fun fs => open_w creatable fs (path_join module_dir "example_file2.yml") example_yaml) in
  ret true.

(** setup_dispersion.py:168-201 install_rii *)
Definition install_rii (module_dir : string) (ask_confirm : bool) : io bool :=
  let! install := (if ask_confirm then get_confirmation else ret true) in
  if install then
    let! _ := change_disk (fun fs => clone fs module_dir) in ret true
  else
    let! d := look (fun fs => dir_exists fs module_dir) in
    if negb d then ret false else
    let! d := look (fun fs => dir_exists fs (path_join module_dir "database")) in
    if negb d then ret false else
    let! f := look (fun fs => file_exists fs (path_join (path_join module_dir "database") "library.yml")) in
    if negb f then ret false else ret true.

(** setup_dispersion.py:96-97 and 112: install_funcs[module](module_dir) *)
Definition install_func (m module_dir : string) : io bool :=
  if String.eqb m "UserData" then install_userdata module_dir
  else if String.eqb m "RefractiveIndexInfo" then install_rii module_dir true
  else fail KeyError.

(** setup_dispersion.py:92-115 install_modules. The value conf['Modules'] is a mapping, otherwise
    TypeError (simplification: strings and lists have no item assignment by name; a list of
    modules fails only after the first questions). *)
Definition install_module (conf : cfg) (m : string) : io bool :=
  let! install := (if String.eqb m "UserData" then ret true else get_confirmation) in
  if install then
    let! v := pure (dlookup conf "Path") in
    let! p := pure (check_str v) in
    let module_dir := path_join p m in
    let! d := look (fun fs => dir_exists fs module_dir) in
    let! _ := (if d then ret tt else change_disk (fun fs => mkdir fs module_dir)) in
    install_func m module_dir
  else ret false.
Fixpoint install_each (conf : cfg) (names : list string) (mods : dict cval) : io (dict cval) :=
  match names with
  | [] => ret mods
  | m :: rest => let! ok := install_module conf m in install_each conf rest (dset mods m (CBool ok))
  end.
Definition install_modules (conf : cfg) : io cfg :=
  let! v := pure (dlookup conf "Modules") in
  match v with
  | CMap mods => let! mods' := install_each conf (map fst mods) mods in ret (dset conf "Modules" (CMap mods'))
  | _ => fail TypeError
  end.

(** setup_dispersion.py:203-208 maybe_rebuild_catalogue, with catalogue.py:211-215 save_to_file *)
Definition save_catalogue (conf : cfg) (text : string) : io unit :=
  let! v := pure (dlookup conf "Path") in let! base := pure (check_str v) in
  let! v := pure (dlookup conf "File") in let! file := pure (check_str v) in
  change_disk (fun fs => open_w creatable fs (path_join base file) text).
Definition maybe_rebuild_catalogue (conf : cfg) : io unit :=
  let! rebuild := get_confirmation in
  if rebuild then
    let! r := look (fun fs => catalogue_text fs conf) in
    let! text := pure r in
    save_catalogue conf text
  else ret tt.

(** catalogue.py:32-46 rebuild_catalogue *)
Definition rebuild_catalogue : io unit :=
  let! rebuild := ask_rebuild in
  if rebuild then
    let! conf := on_disk (get_config home package_dir yaml_parse) in
    let! r := look (fun fs => catalogue_text fs conf) in
    let! text := pure r in
    save_catalogue conf text
  else ret tt.

(** setup_dispersion.py:210-229 main *)
Definition main : io unit :=
  let! conf := on_disk (default_config home yaml_parse) in
  let! path := confirm_loop (get_root_dir conf) in
  let conf := dset conf "Path" (CStr path) in
  let! name := confirm_loop (get_catalogue_name conf) in
  let conf := dset conf "File" (CStr name) in
  let! conf := install_modules conf in
  let! user_dir := on_disk (get_user_config_dir home) in
  let! _ := on_disk (fun fs => write_config creatable home package_dir yaml_dump fs conf (Some user_dir)) in
  maybe_rebuild_catalogue conf.
End Setup.
