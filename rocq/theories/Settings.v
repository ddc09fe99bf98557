(** Model of how main.go:38-43 gets its settings: godotenv.Load, then
    NewNamespaceService (namespaceservice.go:42-45) and NewConfigFromEnv
    (config.go:20-41, Config.v). *)
From Verif Require Import Base Naming Config.

(** The environment of the process: the variables that are set. *)
Notation environ := (gmap (list byte) (list byte)).

(** os.Getenv: "" for an unset variable. *)
Definition getenv (env : environ) (name : list byte) : list byte := default [] (env !! name).

(** godotenv.Load() of version 1.4.0 (go.mod:8), which is not part of the repository:
    an error if the file .env cannot be read or parsed; otherwise every variable of the
    file that is not in the environment yet is set.  [None]: the file cannot be read or
    parsed; [Some vars]: what it assigns, as a map (of several assignments to one name
    the last counts, which godotenv's parser takes care of). *)
Definition load_dotenv (env : environ) (dotenv : option environ) : outcome environ :=
  match dotenv with
  | None => Err (EMsg "Error loading .env file")
  | Some vars => Ret (map_fold (fun k v e => match e !! k with Some _ => e | None => <[k := v]> e end) env vars)
  end.

(** What the server runs with: the directory of its files, and its address. *)
Record settings := Settings { st_base : list byte; st_config : config }.

(** main.go:38-43, and the settings runShard (main.go:14-36) reads.  log.Fatalf ends
    the process. *)
Definition main_settings (env : environ) (dotenv : option environ) : outcome settings :=
  match load_dotenv env dotenv with
  | Ret e =>
    Ret (Settings (base_path (getenv e (ascii_bytes "REC_PATH")))
          (new_config_from_env (getenv e (ascii_bytes "REC_HOST")) (getenv e (ascii_bytes "REC_PORT")) None))
  | Err x => Err x
  | Panic => Panic
  | Hang => Hang
  end.
