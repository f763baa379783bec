(** The beginning of the process: config/config.go, utils.DecryptKey, NewOnchain and main.go:37-189. *)
From Verif Require Export Sync Onchain.

(** ** The command line *)

(** The values of the flags after flag.Parse, config.go:33-52. *)
Record flags := Flags {
  f_version : bool; f_dry : bool; f_key_file : string; f_key_pass : string; f_retries : Z; f_log_level : string;
  f_api_port : Z; f_metrics_port : Z; f_sync_url : string; f_consensus : string; f_execution : string;
  f_pool : string; f_relayers : string }.
(** CliConfig, config.go:14-27. *)
Record cli := Cli {
  k_dry : bool; k_key_file : string; k_key_pass : string; k_retries : Z; k_consensus : string; k_execution : string;
  k_pool : string; k_log_level : string; k_api_port : Z; k_metrics_port : Z; k_sync_url : string; k_relayers : list string }.
(** How NewCliConfig ends: it prints the version and exits, returns an error, or returns the configuration. config.go:33-115. *)
Inductive cli_result := Printed | Refused (err : string) | Accepted (k : cli).

(** The error of one relayer endpoint, if any, config.go:88-98. [parses]: url.Parse gives no error. *)
Definition bad_endpoint (parses : string → bool) (e : string) : option string :=
  if String.eqb e "" then Some "relayer endpoint URL cannot be empty"
  else if negb (has_prefix e "https://") then Some "relayer endpoint URL must start with 'https://'"
  else if negb (parses e) then Some "invalid relayer endpoint URL" else None.
(** The loop over the endpoints, config.go:88-98. *)
Fixpoint first_bad (parses : string → bool) (l : list string) : option string :=
  match l with
  | [] => None
  | e :: l => match bad_endpoint parses e with Some err => Some err | None => first_bad parses l end
  end.
(** NewCliConfig after flag.Parse, config.go:54-115. *)
Definition new_cli_config (parses : string → bool) (f : flags) : cli_result :=
  if f_version f then Printed else
  if negb (f_dry f) && String.eqb (f_key_file f) "" then Refused "you must provide a keystore file to update the contract root" else
  if negb (f_dry f) && String.eqb (f_key_pass f) "" then Refused "you must provide a password for the keystore file" else
  if f_dry f && negb (String.eqb (f_key_file f) "") then Refused "you can't provide a keystore file in dry run mode" else
  if f_dry f && negb (String.eqb (f_key_pass f) "") then Refused "you can't provide a password for the keystore file in dry run mode" else
  if negb (is_hex_address (f_pool f)) then Refused "pool-address is not a valid address" else
  let l := split_at "," (f_relayers f) in
  if match l with [] => true | [e] => String.eqb e "" | _ => false end
  then Refused "relayers-endpoints is a mandatory flag and cant be empty" else
  match first_bad parses l with
  | Some err => Refused err
  | None => Accepted (Cli (f_dry f) (f_key_file f) (f_key_pass f) (f_retries f) (f_consensus f) (f_execution f) (f_pool f)
      (f_log_level f) (f_api_port f) (f_metrics_port f) (f_sync_url f) l)
  end.

(** log.ParseLevel of logrus knows these names, whatever their case. main.go:74-78. *)
Definition log_levels : list string := ["panic"; "fatal"; "error"; "warn"; "warning"; "info"; "debug"; "trace"].
(** log.ParseLevel, main.go:74-78. *)
Definition parse_level (s : string) : bool := existsb (String.eqb (to_lower s)) log_levels.

(** ** Connecting *)

(** What NewOnchain asks, in order; [None] for an error where only the error matters. onchain.go:78-165. *)
Record connect_answers := ConnectAnswers {
  co_dial : option string;              (* error of 81 *)
  co_chain : option Z;                  (* 87 *)
  co_client : option string;            (* error of 94 *)
  co_deposit : option N;                (* 105 *)
  co_progress : option bool;            (* 118: is the execution client syncing? *)
  co_header : option string;            (* error of 125, asked only if not syncing *)
  co_syncing : option string;           (* error of 134 *)
  co_contract : option string }.        (* error of 147 *)
(** NewOnchain, onchain.go:78-165: is the returned pointer non-nil, and the error. *)
Definition connect (A : connect_answers) : bool * option string :=
  match co_dial A with Some e => (false, wrap (Some e) "Error dialing execution client") | None =>
  match co_chain A with None => (false, Some "Error fetching chainid from execution client") | Some exec =>
  match co_client A with Some e => (false, wrap (Some e) "Error dialing consensus client") | None =>
  match co_deposit A with None => (false, Some "Error fetching deposit contract from consensus client") | Some deposit =>
  let '(ok, err) := new_onchain exec deposit in
  if negb ok then (false, err) else
  match co_progress A with None => (false, Some "Error fetching execution client sync progress") | Some syncing =>
  match (if syncing then None else co_header A) with Some e => (false, wrap (Some e) "Error fetching execution client header") | None =>
  match co_syncing A with Some e => (false, wrap (Some e) "Error fetching consensus client sync progress") | None =>
  match co_contract A with Some e => (false, wrap (Some e) "Error instantiating contract") | None => (true, None)
  end end end end end end end end.

(** ** Permission to report *)

(** IsAddressWhitelisted, onchain.go:572-594, on the answer of GetAllOracleMembers. *)
Definition is_whitelisted (members : option (list string)) (a : string) : option bool :=
  match members with None => None | Some l => Some (existsb (String.eqb a) l) end.

(** What main asks besides the connection and the configuration, main.go:52-175. *)
Record boot_answers := BootAnswers {
  bo_folder : option string;            (* error of 52 or 56: the log file *)
  bo_key : option string;               (* 84: the address of the decrypted key *)
  bo_connect : connect_answers;         (* 94 *)
  bo_members : option (list string);    (* 101 *)
  bo_balance : option Z;                (* 111 *)
  bo_config : config_answers;           (* 124 *)
  bo_sync : fetched;                    (* 135, asked only with a checkpoint sync url *)
  bo_onchain : option N }.              (* 170: the slot *)
(** The checks before a process may report, main.go:81-121: the key, the connection, the whitelist and the balance.
    In dry-run mode only the connection. Methods called on the nil pointer of a failed chain check panic. *)
Definition may_report (A : boot_answers) (k : cli) : res unit :=
  let! who := (if k_dry k then Ok "" else must (bo_key A) "Could not decrypt updater key") in
  let '(connected, err) := connect (bo_connect A) in
  match err with
  | Some _ => Die (Fatal "Could not create new onchain object")
  | None =>
      if negb connected then Die (Panic "nil pointer dereference") else
      if k_dry k then Ok () else
      let! listed := must (is_whitelisted (bo_members A) who) "Could not get whitelist status" in
      if negb listed then Die (Fatal "Pool address is not whitelisted") else
      let! balance := must (bo_balance A) "Could not get updater address balance" in
      if (balance =? 0)%Z then Die (Fatal "Updater address has no balance") else Ok ()
  end.
(** main from the parsed command line up to the start of the main loop, main.go:51-193. [args], [sel]: see [get_config]. *)
Definition boot (sha H : string → string) (E : env) (args : string → option Z) (sel : string) (A : boot_answers) (k : cli) (fs : files)
  : res oracle :=
  match bo_folder A with Some _ => Die (Fatal "error creating the oracleLogs.txt folder") | None =>
  if negb (parse_level (k_log_level k)) then Die (Fatal "not a valid logrus Level") else
  let! _ := may_report A k in
  let! c := get_config E args sel (hex_to_address (k_pool k)) (bo_config A) (k_pool k) (k_dry k) in
  if String.eqb (k_sync_url k) "" then startup sha H E None (bo_onchain A) fs c
  else sync_startup sha H E (bo_sync A) (bo_onchain A) fs c
  end.
