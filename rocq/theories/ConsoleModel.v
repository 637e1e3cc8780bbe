(** Model of the output: /repo/libff/console.py, /repo/libff/field.py:32-45,
    79-109, /repo/libff/processing.py:153-187, 342-352 and
    /repo/libff/main.py:242-255. *)
From Coq Require Import List NArith ZArith Bool.
From Verif Require Import Py PathModel EntryModel TypeModel FieldModel CountModel JsonModel.
Import ListNotations.

(** An entry and the attributes of symbolic links that the console uses
    (entry.py:134-140); [c_link] is not set, hence not meaningful, if the entry
    is no symbolic link. *)
Record centry := CEntry { c_entry : entry; c_link : str; c_broken : bool }.
Definition mode_of (e : centry) : Z := st_mode (e_status (c_entry e)).
(** entry.py:398-401, 408-411 *)
Definition is_dir (e : centry) : bool := str_eqb (type_of_mode (mode_of e)) ($"directory").
Definition is_symlink (e : centry) : bool := str_eqb (type_of_mode (mode_of e)) ($"symlink").

(** namedtuple String (console.py:29) *)
Record string := String { s_value : str; s_length : nat }.
Definition plain (s : str) : string := String s (length s).

(** * Colours *)

(** ColorConsole.colors, .extensions and .reset (console.py:264-300) *)
Record colours := Colours { co_rules : list (str * option (str * str)); co_exts : list (str * str); co_reset : str }.
(** console.py:268-269 *)
Definition esc (seq : str) : str := match seq with [] => [] | _ => 27%N :: 91%N :: seq ++ [109%N] end.
(** part.split("=", 1), None for ValueError *)
Fixpoint split_once (c : char) (s : str) : option (str * str) :=
  match s with
  | [] => None
  | x :: s => if N.eqb x c then Some ([], s)
              else match split_once c s with Some (a, b) => Some (x :: a, b) | None => None end
  end.
(** console.py:279-290.  A key of two characters has no extension
    (os.path.splitext, the same algorithm as that of path.py), so it does not
    matter that isalpha() is not modelled: the only keys that are looked up in
    [rules] are letters. *)
Definition read_rule (acc : list (str * str) * list (str * str)) (p : str) : list (str * str) * list (str * str) :=
  match split_once 61%N p with
  | None => acc
  | Some (key, val) =>
      if Nat.eqb (length key) 2 then (dict_set str_eqb key val (fst acc), snd acc)
      else match slice (snd (splitext key)) (Some 1%Z) None with
           | [] => acc
           | ext => (fst acc, dict_set str_eqb ext (esc val) (snd acc))
           end
  end.
(** ColorConsole.__init__ (console.py:261-300); [env] is LS_COLORS or empty.
    [co_reset] is not set and not used if [env] is empty. *)
Definition read_colours (env : str) : colours :=
  match env with
  | [] => Colours [] [] []
  | _ =>
      let '(rules, exts) := fold_left read_rule (split_on 58%N env) ([], []) in
      let reset := esc (match dict_get str_eqb ($"rs") rules with Some v => v | None => $"0" end) in
      let rule k := (k, match dict_get str_eqb k rules with Some v => Some (esc v, reset) | None => None end) in
      Colours (map rule [$"di"; $"ex"; $"ln"; $"or"]) exts reset
  end.
(** Console or ColorConsole *)
Inductive style := Plain | Coloured (c : colours).
(** ColorConsole.colorize (console.py:320-327) and the methods that call it
    (186-204, 308-318) *)
Definition colorize (st : style) (rule text : str) : res string :=
  match st with
  | Plain => Ok (plain text)
  | Coloured c =>
      match dict_get str_eqb rule (co_rules c) with
      | None => Err KeyErr
      | Some None => Ok (plain text)
      | Some (Some (a, b)) => Ok (String (a ++ text ++ b) (length text))
      end
  end.
(** render_file (console.py:180-184, 302-306) *)
Definition render_file (st : style) (ext name : str) : string :=
  match st with
  | Plain => plain name
  | Coloured c =>
      match dict_get str_eqb ext (co_exts c) with
      | Some a => String (a ++ name ++ co_reset c) (length name)
      | None => plain name
      end
  end.

Section Console.
  (** registry.get_attribute *)
  Variable get : centry -> str * str -> res value.
  Variable human : ty -> Z -> str.
  Variable st : style.
  Variable follow_symlinks : bool.

  (** console.py:165-178 *)
  Definition render_name (e : centry) : res string :=
    if is_symlink e && negb follow_symlinks then
      if c_broken e then colorize st ($"or") (e_name (c_entry e)) else colorize st ($"ln") (e_name (c_entry e))
    else if executable_of (mode_of e) then colorize st ($"ex") (e_name (c_entry e))
    else Ok (render_file st (e_ext (c_entry e)) (e_name (c_entry e))).
  (** console.py:146-163 *)
  Definition render_path (e : centry) (with_link : bool) : res string :=
    if is_dir e then colorize st ($"di") (e_path (c_entry e))
    else
      do name <- render_name e;
      do path <- match e_dir (c_entry e) with
                 | [] => Ok name
                 | d => do dirname <- colorize st ($"di") (d ++ [SLASH]);
                        Ok (String (s_value dirname ++ s_value name) (s_length dirname + s_length name))
                 end;
      if is_symlink e && with_link
      then Ok (String (s_value path ++ $" -> " ++ c_link e) (s_length path + 4 + length (c_link e)))
      else Ok path.
  Definition is_attribute (f : field) (name : str) : bool :=
    str_eqb (fst (f_attribute f)) ($"file") && str_eqb (snd (f_attribute f)) name.
  (** console.py:124-144; the type that get_attribute_and_type
      (registry.py:286-289) returns is the one of the field. *)
  Definition render_field (e : centry) (f : field) : res string :=
    if is_attribute f ($"dir") then colorize st ($"di") (e_dir (c_entry e))
    else if is_attribute f ($"name") then render_name e
    else if is_attribute f ($"path") then render_path e (has_modifier f ($"h"))
    else
      do v <- get e (f_attribute f);
      do s <- output human (f_type f) (f_modifier f) v;
      Ok (plain s).
  (** console.py:206-214 *)
  Definition pad_string (s : string) (width : Z) : str :=
    let fill := repeat 32%N (Z.to_nat (Z.max 0 (Z.abs width - Z.of_nat (s_length s)))) in
    if (width <? 0)%Z then s_value s ++ fill else fill ++ s_value s.
  (** console.py:216-224 *)
  Definition format_field (e : centry) (f : field) : res str :=
    do s <- render_field e f;
    match f_width f with
    | Some w => match py_int w with Some n => Ok (pad_string s n) | None => Err ValueError end
    | None => Ok (s_value s)
    end.

  (** --all *)
  Variable all : bool.
  (** console.py:229-237; None for the return *)
  Fixpoint format_fields (e : centry) (fields : list field) : res (option (list str)) :=
    match fields with
    | [] => Ok (Some [])
    | f :: fields =>
        match format_field e f with
        | Ok s => do o <- format_fields e fields; Ok (match o with Some l => Some (s :: l) | None => None end)
        | Err KeyErr =>
            if all || has_modifier f ($"n")
            then do o <- format_fields e fields; Ok (match o with Some l => Some ([] :: l) | None => None end)
            else Ok None
        | Err x => Err x
        end
    end.
  (** console.py:226-239; the line that is written, if any *)
  Definition process (separator : str) (fields : list field) (e : centry) : res (option str) :=
    do o <- format_fields e fields;
    Ok (match o with Some l => Some (join_with separator l) | None => None end).

  (** OutputFields.to_dict (field.py:93-109) *)
  Definition record_value (e : centry) (f : field) : res (option value) :=
    match get e (f_attribute f) with
    | Err KeyErr => Ok None
    | Err x => Err x
    | Ok v => if has_modifier f ($"h") then do s <- output human (f_type f) (f_modifier f) v; Ok (Some (VStr s)) else Ok (Some v)
    end.
  Fixpoint to_dict_from (e : centry) (fields : list field) (record : list (str * option value)) : res (list (str * option value)) :=
    match fields with
    | [] => Ok record
    | f :: fields => do v <- record_value e f; to_dict_from e fields (dict_set str_eqb (f_alias f) v record)
    end.
  Definition to_dict (fields : list field) (e : centry) : res (list (str * option value)) := to_dict_from e fields [].

  (** * JSON *)

  (** JsonConsole._print_record (console.py:96-102): the text and print_comma *)
  Definition print_record (s : str * bool) (record : list (str * option value)) : str * bool :=
    (fst s ++ (if snd s then $"," else []) ++ dumps record, true).
  (** JsonConsole's life: __init__ (90-94), process for every entry (76), close
      (104-105), as called by processing.py:348-352 and main.py:301 *)
  Definition json_console (fields : list field) (entries : list centry) : res str :=
    do records <- mapr (to_dict fields) entries;
    Ok (fst (fold_left print_record records ($"[", false)) ++ $"]" ++ [10%N]).
  (** JsonlConsole.process (console.py:73-83) *)
  Definition jsonl_line (fields : list field) (e : centry) : res str :=
    do r <- to_dict fields e; Ok (dumps r ++ [10%N]).
End Console.

(** str.replace of a two character text *)
Fixpoint replace2 (a b : char) (new : str) (s : str) : str :=
  match s with
  | x :: (y :: t) as r => if N.eqb x a && N.eqb y b then new ++ replace2 a b new t else x :: replace2 a b new r
  | s => s
  end.
(** Console.__init__ (console.py:117) *)
Definition field_separator (s : str) : str := replace2 92%N 110%N [10%N] (replace2 92%N 116%N [9%N] s).

(** * Which one *)

(** The options that count here, as truth values. *)
Record chosen := Chosen { o_sort : bool; o_count : bool; o_limit : bool; o_exec : bool; o_batch : bool;
                          o_json : option str; o_colour : str; o_isatty : bool }.
Inductive console := NullConsole | JsonConsole | JsonlConsole | ColorConsole | TextConsole.
Inductive processing := CollectiveExec | CollectiveConsole (c : console) | ImmediateExec | ImmediateConsole (c : console).
Definition json_is (o : chosen) (s : str) : bool := match o_json o with Some j => str_eqb j s | None => false end.
(** BaseConsoleProcessing.__init__ (processing.py:157-176); an empty list of
    fields for --count is not possible *)
Definition console_class (o : chosen) : console :=
  if o_count o then NullConsole
  else if json_is o ($"json") then JsonConsole
  else if json_is o ($"jsonl") then JsonlConsole
  else if (if str_eqb (o_colour o) ($"auto") then o_isatty o else str_eqb (o_colour o) ($"always")) then ColorConsole
  else TextConsole.
(** FF.setup_processing (main.py:242-255) *)
Definition setup_processing (o : chosen) : processing :=
  if o_sort o || o_count o || o_limit o || o_batch o || json_is o ($"json") then
    if o_exec o || o_batch o then CollectiveExec else CollectiveConsole (console_class o)
  else if o_exec o then ImmediateExec
  else ImmediateConsole (console_class o).
