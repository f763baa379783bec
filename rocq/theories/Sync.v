(** Starting from the state of another oracle: the text that GET /state answers (api.go:116-124, 1075-1085) and the
    part of main.go that asks for it (main.go:133-155). *)
From Verif Require Export Api.

(** The compact text written by json.Encoder (encoding/json encode.go), without line breaks and with a colon only.
    api.go:119. *)
Fixpoint compact (j : json) : string :=
  match j with
  | JNull => "null"
  | JBool true => "true"
  | JBool false => "false"
  | JNum lit => lit
  | JStr s => quote s
  | JArr l => "[" +:+ commas (compact <$> l) +:+ "]"
  | JObj l => "{" +:+ commas ((λ kx, quote kx.1 +:+ ":" +:+ compact kx.2) <$> l) +:+ "}"
  end.
(** The body of the answer to GET /state, api.go:119, 1084: Encode ends the text with a line break. *)
Definition state_body (s : ost) : string := compact (enc_state s) +:+ String (ascii_of_N 10) EmptyString.

(** What http.Get may give, main.go:135-148: an error, or a status and the body that could be read ([None]: reading
    it failed). *)
Inductive fetched := NoAnswer | Fetched (status : N) (body : option string).

(** Starting with a checkpoint sync url, main.go:133-189: everything but a complete answer with status 200 ends the
    process; the rest is [startup]. *)
Definition sync_startup (sha H : string → string) (E : env) (f : fetched) (onchain : option N) (fs : files) (c : config)
  : res oracle :=
  match f with
  | NoAnswer => Die (Fatal "Could not call checkpoint sync endpoint")
  | Fetched status body =>
      if negb (status =? 200)%N then Die (Fatal "Got error from checkpoint sync url") else
      match body with
      | None => Die (Fatal "Could not read response body")
      | Some raw => startup sha H E (Some raw) onchain fs c
      end
  end.

(** What a client of the service is sent for GET /state, api.go:106-124: the status and the text. A reply other than
    a state is not asked for here; the text of a refusal is not read (main.go:141-143) and left out. *)
Definition sent_state (r : reply body) : fetched :=
  match r with
  | Answer (BState s) => Fetched 200 (Some (state_body s))
  | Answer _ => NoAnswer
  | Refuse code _ => Fetched code (Some "")
  end.
