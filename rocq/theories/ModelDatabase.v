(** Model of the databases an application makes and extends (src/database.rs,
    src/manufacture.rs) and of src/log/logger.rs. *)
From Verif Require Import Base HMap ModelCodec DbTable MakerTable ModelObject.

(* ------------------------------------------------------------------ *)
(** ** src/manufacture.rs *)

(** src/manufacture.rs:19-22. *)
Record manufacture : Type := Manufacture { mf_code : N; mf_name : string }.
(** src/manufacture.rs:25-30. *)
Definition manufacture_new : manufacture := Manufacture 0 "".
(** src/manufacture.rs:32-34, set_code. *)
Definition manufacture_set_code (m : manufacture) (code : N) : manufacture := Manufacture code (mf_name m).
(** src/manufacture.rs:40-42, set_name. *)
Definition manufacture_set_name (m : manufacture) (name : string) : manufacture := Manufacture (mf_code m) name.

(* ------------------------------------------------------------------ *)
(** ** src/database.rs *)

(** src/database.rs:44-47. *)
Record database : Type := Database { db_manufactures : list manufacture; db_objects : list object }.

(** src/database.rs:51-59 with src/database_manufacturers.rs: every row of the
    table is added as a manufacture with its code and name. *)
Definition standard_manufactures : list manufacture :=
  map (fun r => manufacture_set_name (manufacture_set_code manufacture_new (fst r)) (snd r)) maker_table.
(** src/database.rs:51-59, new. *)
Definition database_new {P : Profile} {HO : HashOrder} (seed : N -> N) : outcome database :=
  let! os := standard_database seed in Ret (Database standard_manufactures os).

(** src/database.rs:71-74, add_manufacture. *)
Definition database_add_manufacture (d : database) (m : manufacture) : database * bool :=
  (Database (db_manufactures d ++ [m]) (db_objects d), true).
(** src/database.rs:85-88, add_object. *)
Definition database_add_object (d : database) (o : object) : database * bool :=
  (Database (db_manufactures d) (db_objects d ++ [o]), true).

(** src/database.rs:76-83, find_manufacture: the loop over the numbers. *)
Fixpoint find_manufacture_loop (l : list manufacture) (code : N) : option manufacture :=
  match l with
  | [] => None
  | m :: r => if mf_code m =? code then Some m else find_manufacture_loop r code
  end.
(** src/database.rs:76-83, find_manufacture. *)
Definition database_find_manufacture (d : database) (code : N) : option manufacture :=
  find_manufacture_loop (db_manufactures d) code.
(** src/database.rs:90-98, find_object. *)
Definition database_find_object (d : database) (code : N) : option object :=
  db_find_object (db_objects d) code.

(** The calls that change a database. src/database.rs:71-74 and 85-88. *)
Inductive db_call : Type := AddManufacture (m : manufacture) | AddObject (o : object).
(** src/database.rs:71-74 and 85-88, what a call does to the database. *)
Definition db_step (d : database) (c : db_call) : database :=
  match c with
  | AddManufacture m => fst (database_add_manufacture d m)
  | AddObject o => fst (database_add_object d o)
  end.
(** src/database.rs:71-74 and 85-88, calls one after another. *)
Definition db_run (d : database) (cs : list db_call) : database := fold_left db_step cs d.

(* ------------------------------------------------------------------ *)
(** ** src/log/logger.rs *)

(** Levels of the log crate: 0 is LevelFilter::Off, 1 Error, ..., 5 Trace.

    [lg_installed]: the logger given to log::set_logger first, if any; [true] is
    LOGGER (src/log/logger.rs:27-29), [false] a logger of the application.
    [lg_once]: INIT (line 20): not run, run, or poisoned by a panic. [lg_max] is
    log::max_level(), [lg_lines] the records LOGGER has printed. [lg_own] is a Logger
    of the application (Logger::new, lines 32-36). *)
Inductive once : Type := OnceNew | OnceDone | OncePoisoned.
(** src/log/logger.rs:20-36, the state of a process described above. *)
Record logging : Type := Logging { lg_installed : option bool; lg_once : once; lg_max : N; lg_lines : list (N * N); lg_own : N }.
(** A new process. src/log/logger.rs:20 and 27-36. *)
Definition logging_new : logging := Logging None OnceNew 0 [] 5.

(** The level of LOGGER (src/log/logger.rs:27-29): a static, never changed. *)
Definition shared_level : N := 5.

(** src/log/logger.rs:42-70, the calls; log::set_logger, log::set_max_level and log!
    are those of the crate log. *)
Inductive log_call : Type :=
| LInit                     (* Logger::init *)
| LOther                    (* log::set_logger with a logger of the application *)
| LSetMax (l : N)           (* log::set_max_level *)
| LSetLevel (l : N)         (* set_level of a Logger of the application *)
| LRecord (l : N) (text : N). (* log!(level, ...) somewhere in the process *)

(** One call: the new state and whether it panicked. src/log/logger.rs:42-70. *)
Definition log_step (s : logging) (c : log_call) : logging * bool :=
  match c with
  | LInit =>
    (** src/log/logger.rs:46-52, init; [call_once] does nothing after a run which
        returned and panics after one which panicked; [expect] panics when there
        is a logger already. *)
    match lg_once s with
    | OnceDone => (s, false)
    | OncePoisoned => (s, true)
    | OnceNew =>
      match lg_installed s with
      | None => (Logging (Some true) OnceDone 5 (lg_lines s) (lg_own s), false)
      | Some _ => (Logging (lg_installed s) OncePoisoned (lg_max s) (lg_lines s) (lg_own s), true)
      end
    end
  | LOther =>
    (match lg_installed s with
     | None => Logging (Some false) (lg_once s) (lg_max s) (lg_lines s) (lg_own s)
     | Some _ => s
     end, false)
  | LSetMax l => (Logging (lg_installed s) (lg_once s) l (lg_lines s) (lg_own s), false)
  (** src/log/logger.rs:42-44, set_level. *)
  | LSetLevel l => (Logging (lg_installed s) (lg_once s) (lg_max s) (lg_lines s) l, false)
  | LRecord l text =>
    (** The macros ask [l <= max_level()]; then src/log/logger.rs:56-70, enabled and
        log. *)
    (if (l <=? lg_max s) && match lg_installed s with Some true => l <=? shared_level | _ => false end
     then Logging (lg_installed s) (lg_once s) (lg_max s) (lg_lines s ++ [(l, text)]) (lg_own s)
     else s, false)
  end.
(** Calls one after another: the state and what panicked. src/log/logger.rs:42-70. *)
Fixpoint log_run (s : logging) (cs : list log_call) : logging * list bool :=
  match cs with
  | [] => (s, [])
  | c :: r => let '(s, b) := log_step s c in let '(s, bs) := log_run s r in (s, b :: bs)
  end.
