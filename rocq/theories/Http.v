(** The HTTP layer of the service: the CORS wrapper, the router (gorilla/mux v1.8.0 as getRouter configures it) and the
    middleware that counts requests. api/api.go:92-262. Left out: headers other than the status, the latency histogram. *)
From Verif Require Export Api.

(** ** Paths *)

Definition slash : ascii := "/"%char. (* api.go:55-77 *)
(** strings.Join with "/", as path.Clean builds its result. getRouter, api.go:184. *)
Fixpoint join_segments (l : list string) : string :=
  match l with
  | [] => ""
  | [w] => w
  | w :: l => w +:+ String slash (join_segments l)
  end.
(** The loop of path.Clean (Go's package path) for a rooted path, on the parts between slashes: empty ones and "." are dropped,
    ".." drops the part before it. [acc] has the parts kept so far, the last one first. getRouter, api.go:184. *)
Fixpoint clean_segments (l acc : list string) : list string :=
  match l with
  | [] => rev acc
  | w :: l =>
      if String.eqb w "" || String.eqb w "." then clean_segments l acc
      else if String.eqb w ".." then clean_segments l (tail acc)
      else clean_segments l (w :: acc)
  end.
(** cleanPath (mux.go): path.Clean of the rooted path, with a final slash put back. getRouter, api.go:184. *)
Definition clean_path (p : string) : string :=
  match p with
  | EmptyString => "/"
  | String c r =>
      let p := if Ascii.eqb c slash then p else String slash p in
      let np := String slash (join_segments (clean_segments (split_at slash p) [])) in
      if ends_with slash p && negb (String.eqb np "/") then np +:+ "/" else np
  end.

(** ** Routes *)

(** A path template: a text, or a text followed by one variable, [^/]+ in mux's regular expression. api.go:55-77. *)
Inductive template := Fixed (s : string) | Followed (s name : string).
(** GetPathTemplate, api.go:165. *)
Definition template_text (t : template) : string :=
  match t with Fixed s => s | Followed s name => s +:+ "{" +:+ name +:+ "}" end.
(** The anchored regular expression of a template, api.go:55-77: the value of the variable, if it matches. *)
Definition match_template (t : template) (path : string) : option string :=
  match t with
  | Fixed s => if String.eqb path s then Some "" else None
  | Followed s _ =>
      if has_prefix path s then
        let v := sdrop (String.length s) path in
        if String.eqb v "" || negb (sforall (λ c, negb (Ascii.eqb c slash)) v) then None else Some v
      else None
  end.
(** The routes in the order of their registration, all with the method GET: api.go:187-211. *)
Definition routes : list (template * (string → request)) :=
  [ (Fixed "/", λ _, GetRoot);
    (Fixed "/status", λ _, GetStatus);
    (Fixed "/config", λ _, GetConfig);
    (Followed "/registeredrelays/" "valpubkey", GetRelays);
    (Fixed "/state", λ _, GetState);
    (Fixed "/memory/validators", λ _, GetValidators);
    (Followed "/memory/validator/" "valindex", GetValidator);
    (Followed "/memory/validatorsbyindex/" "valindices", GetByIndex);
    (Followed "/memory/validators/" "withdrawalAddress", GetByWithdrawal);
    (Fixed "/memory/feesinfo", λ _, GetFees);
    (Fixed "/memory/statistics", λ _, GetStatistics);
    (Fixed "/memory/allblocks", λ _, GetAllBlocks);
    (Fixed "/memory/proposedblocks", λ _, GetProposed);
    (Fixed "/memory/missedblocks", λ _, GetMissed);
    (Fixed "/memory/wrongfeeblocks", λ _, GetWrongFee);
    (Fixed "/memory/donations", λ _, GetDonations);
    (Followed "/onchain/proof/" "withdrawalAddress", GetProof) ].
(** What becomes of a request before a handler runs: answered by the CORS wrapper, redirected, not found, refused
    for its method, or given to a handler. api.go:184-217, 246-262. *)
Inductive routed :=
  | Preflight | Moved (path : string) | NotFound | NotAllowed | Handle (r : request) (t : template).
(** Router.Match (mux.go) over the routes; [mismatch]: a route matched but for its method. getRouter, api.go:184-217. *)
Fixpoint match_routes (l : list (template * (string → request))) (method path : string) (mismatch : bool) : routed :=
  match l with
  | [] => if mismatch then NotAllowed else NotFound
  | (t, f) :: l =>
      match match_template t path with
      | None => match_routes l method path mismatch
      | Some v => if String.eqb method "GET" then Handle (f v) t else match_routes l method path true
      end
  end.
(** corsMiddleware (api.go:246-262) around Router.ServeHTTP (mux.go). [path] is the decoded path of the URL. Simplification:
    of the location of a redirect only the path is kept. *)
Definition route (method path : string) : routed :=
  if String.eqb method "OPTIONS" then Preflight
  else if negb (String.eqb (clean_path path) path) then Moved (clean_path path)
  else match_routes routes method path false.

(** ** Writing an answer *)

(** What a handler does with its http.ResponseWriter: WriteHeader, or Write of some bytes. api.go:104-124, 133-146. *)
Inductive write := WHeader (code : N) | WBody (bytes : N).
(** responseWriterDelegator, api.go:126-131. *)
Record delegator := Delegator { dg_status : N; dg_written : N; dg_wrote : bool }.
(** A fresh one, api.go:160. *)
Definition new_delegator : delegator := Delegator 0 0 false.
(** WriteHeader and Write of the delegator, api.go:133-146, and what they pass on. Simplification: a write passes on all bytes. *)
Definition delegate (x : write) (d : delegator) : delegator * list write :=
  match x with
  | WHeader c => (Delegator c (dg_written d) true, [x])
  | WBody n =>
      let '(d, pre) := if dg_wrote d then (d, []) else (Delegator 200 (dg_written d) true, [WHeader 200]) in
      (Delegator (dg_status d) (dg_written d + n) (dg_wrote d), pre ++ [x])
  end.
(** A handler's writes through the delegator. api.go:163. *)
Fixpoint delegate_all (l : list write) (d : delegator) : delegator * list write :=
  match l with
  | [] => (d, [])
  | x :: l => let '(d, out) := delegate x d in let '(d, out') := delegate_all l d in (d, out ++ out')
  end.
(** respondError and respondOK, api.go:104-124; [len]: the length of the encoded body, [None] if encoding or writing it
    fails, after which http.Error writes again (a header and a newline). *)
Definition respond (code : N) (len : option N) : list write :=
  WHeader code :: match len with Some n => [WBody n] | None => [WHeader 500; WBody 1] end.
(** The status of an answer: StatusOK of respondOK, or the code given to respondError. api.go:104-124. *)
Definition reply_status {A} (r : reply A) : N := match r with Answer _ => 200 | Refuse c _ => c end.

(** ** A request *)

(** An answer: by the wrapper or the router with a status, or by a handler. api.go:184-262. *)
Inductive http_answer := Plain (code : N) | FromHandler (r : reply body).
(** The whole way of a request. [len]: as in [respond]. The result: what is answered, and the labels (code, method, path)
    under which prometheusMiddleware counts the request; it runs only around handlers, and not after a panic. mux answers 301,
    404 and 405 itself. api.go:152-182, 246-262. Simplification: the label has the code as a number (sanitizeCode prints it). *)
Definition http (sha : string → string) (E : env) (method path : string) (len : reply body → option N) (w : wire) (o : oracle)
  : res (http_answer * option (N * string * string)) :=
  match route method path with
  | Preflight => Ok (Plain 200, None)
  | Moved _ => Ok (Plain 301, None)
  | NotFound => Ok (Plain 404, None)
  | NotAllowed => Ok (Plain 405, None)
  | Handle r t =>
      let! rep := serve sha E r w o in
      let d := (delegate_all (respond (reply_status rep) (len rep)) new_delegator).1 in
      Ok (FromHandler rep, Some (dg_status d, to_lower method, template_text t))
  end.
(** The state after it, api.go:184-262. *)
Definition after_http (sha : string → string) (method path : string) (w : wire) (o : oracle) : oracle :=
  match route method path with Handle r _ => after_request sha r w o | _ => o end.
