(* x/mrpc/shell: responses and their documents (io.go), requests and responses as messages
   (util.go), and the commands of a shell service (service.go). *)
Require Import ZArith List Bool Lia ZifyBool ZifyNat String.
From Verif Require Import Base BSpec Elements Value Codec Api Stream Wire Lin Registry Events.
Import List ListNotations.
Open Scope Z_scope.

(* ------------------------------------------------------------------------- responses *)

(* for elem := range in.Iterator() { switch elem.Key() ... } with an error *)
Fixpoint each_err {P} (f : bytes -> elem -> P -> go (P * option gerr)) (d : document) (p : P) : go (P * option gerr) :=
  match d with
  | [] => Ret (p, None)
  | e :: r =>
      k <- elem_key e ;; x <- f k e p ;;
      match x with (p, None) => each_err f r p | (p, Some e) => Ret (p, Some e) end
  end.
Definition e_response : gerr := EOther 95.
(* "if x, ok = elem.Value().IntOK(); !ok": a failure stores the zero value *)
Definition take_int {P} (e : elem) (set : Z -> P) : go (P * option gerr) :=
  x <- v_int_ok e ;; match x with Some i => Ret (set i, None) | None => Ret (set 0, Some e_response) end.
Definition take_str {P} (e : elem) (set : bytes -> P) : go (P * option gerr) :=
  x <- v_string_ok e ;; match x with Some s => Ret (set s, None) | None => Ret (set [], Some e_response) end.

(* io.go:18-23 ErrorResponse *)
Record err_resp := MkER { er_ok : Z; er_msg : bytes }.
(* 27-34, 63-65; err.Error() *)
Definition make_error_response (ok : bool) (err : option bytes) : err_resp :=
  MkER (if ok then 1 else 0) (match err with Some s => s | None => [] end).
(* 36-40 *)
Definition er_document (r : err_resp) : go document :=
  a <- ec_int (str "ok") (er_ok r) ;; b <- ec_string (str "errmsg") (er_msg r) ;; Ret [Some a; Some b].
(* 42-60 *)
Definition er_field (k : bytes) (e : elem) (r : err_resp) : go (err_resp * option gerr) :=
  if bytes_eqb k (str "ok") then take_int e (fun i => MkER i (er_msg r)) else
  if bytes_eqb k (str "errmsg") then take_str e (fun s => MkER (er_ok r) s) else
  Ret (r, None).
Definition er_unmarshal (d : document) (r : err_resp) : go (err_resp * option gerr) := each_err er_field d r.
(* 67-75: the text of the error *)
Definition success_or_error (r : err_resp) : option bytes :=
  if negb (empty (er_msg r)) then Some (er_msg r) else
  if er_ok r =? 0 then Some (str "response was not ok") else None.

(* 77-119 isMasterResponse *)
Record im_resp := MkIM { im_err : err_resp; im_min : Z; im_max : Z }.
Definition im_document (r : im_resp) : go document :=
  d <- er_document (im_err r) ;; a <- ec_int (str "minWireVersion") (im_min r) ;; b <- ec_int (str "maxWireVersion") (im_max r) ;;
  Ret (d ++ [Some a; Some b]).
Definition im_field (k : bytes) (e : elem) (r : im_resp) : go (im_resp * option gerr) :=
  if bytes_eqb k (str "minWireVersion") then take_int e (fun i => MkIM (im_err r) i (im_max r)) else
  if bytes_eqb k (str "maxWireVersion") then take_int e (fun i => MkIM (im_err r) (im_min r) i) else
  Ret (r, None).
Definition im_unmarshal (d : document) (r : im_resp) : go (im_resp * option gerr) :=
  x <- er_unmarshal d (im_err r) ;;
  let r := MkIM (fst x) (im_min r) (im_max r) in
  match snd x with Some e => Ret (r, Some e) | None => each_err im_field d r end.

(* 128-162 whatsMyURIResponse and 166-200 buildInfoResponse: one string under the key *)
Record str_resp := MkSR { sr_err : err_resp; sr_str : bytes }.
Definition sr_document (key : bytes) (r : str_resp) : go document :=
  d <- er_document (sr_err r) ;; a <- ec_string key (sr_str r) ;; Ret (d ++ [Some a]).
Definition sr_field (key k : bytes) (e : elem) (r : str_resp) : go (str_resp * option gerr) :=
  if bytes_eqb k key then take_str e (fun s => MkSR (sr_err r) s) else Ret (r, None).
Definition sr_unmarshal (key : bytes) (d : document) (r : str_resp) : go (str_resp * option gerr) :=
  x <- er_unmarshal d (sr_err r) ;;
  let r := MkSR (fst x) (sr_str r) in
  match snd x with Some e => Ret (r, Some e) | None => each_err (sr_field key) d r end.
Definition k_you : bytes := str "you".
Definition k_version : bytes := str "version".

(* 204-238 getLogResponse.  UnmarshalDocument looks for "version" (220) *)
Record log_resp := MkLR { lr_err : err_resp; lr_log : list bytes }.
(* x_constructor.go:268-276 EC.SliceString *)
Fixpoint strings (l : list bytes) : go document :=
  match l with [] => Ret [] | s :: r => v <- ec_string [] s ;; vs <- strings r ;; Ret (Some v :: vs) end.
Definition lr_document (r : log_resp) : go document :=
  d <- er_document (lr_err r) ;; vs <- strings (lr_log r) ;; a <- ec_array (str "log") vs ;; Ret (d ++ [Some a]).
Fixpoint take_strings (es : document) (acc : list bytes) : go (list bytes * option gerr) :=
  match es with
  | [] => Ret (acc, None)
  | e :: r => x <- v_string_ok e ;; match x with Some s => take_strings r (acc ++ [s]) | None => Ret (acc, Some e_response) end
  end.
Definition lr_field (fuel : nat) (k : bytes) (e : elem) (r : log_resp) : go (log_resp * option gerr) :=
  if bytes_eqb k k_version then
    x <- v_mutable_array_ok fuel e ;;
    match x with
    | None => Ret (r, Some e_response)
    | Some es => y <- take_strings es [] ;; Ret (MkLR (lr_err r) (fst y), snd y)
    end
  else Ret (r, None).
Definition lr_unmarshal (fuel : nat) (d : document) (r : log_resp) : go (log_resp * option gerr) :=
  x <- er_unmarshal d (lr_err r) ;;
  let r := MkLR (fst x) (lr_log r) in
  match snd x with Some e => Ret (r, Some e) | None => each_err (lr_field fuel) d r end.

(* -------------------------------------------------------------------------- messages *)

(* util.go:52-57 *)
Definition response_to_message (fuel : nat) (t : Z) (doc : document) : go wmsg :=
  if t =? 2013 then new_op_message fuel false [doc] [] else Ret (new_reply 0 0 0 1 [doc]).
(* 60-69 *)
Definition cmd_namespace : bytes := str "mrpc.$cmd".
Definition request_to_message (fuel : nat) (t : Z) (doc : document) : go wmsg :=
  if t =? 2013 then new_op_message fuel false [doc] [] else Ret (new_query cmd_namespace 0 0 1 (Some doc) (Some [])).
Definition e_body : gerr := EOther 96.
(* The body of an OP_MSG; Documents() of a body has one document, and copying a nil one panics
   (wire_message.go:48-50, document.go:45-51). *)
Definition op_body (items : list section) : go (option document + gerr) :=
  match first_body items with
  | None => Ret (inr e_body)
  | Some None => Panic PNil
  | Some (Some d) => Ret (inl (Some d))
  end.
(* 73-88 *)
Definition request_message_to_document (m : wmsg) : go (option document + gerr) :=
  match m with
  | MOp _ _ _ items _ => op_body items
  | MCommand _ _ _ args _ _ _ => Ret (inl args)
  | _ => Ret (inr e_body)
  end.
(* 92-108 *)
Definition response_message_to_document (m : wmsg) : go (option document + gerr) :=
  match m with
  | MReply _ _ _ _ _ docs => match docs with [] => Panic PIndex | d :: _ => Ret (inl (Some d)) end
  | MCommandReply _ reply _ _ => Ret (inl reply)
  | MOp _ _ _ items _ => op_body items
  | _ => Ret (inr e_body)
  end.

(* --------------------------------------------------------------------------- service *)

(* service.go:36-50 the commands *)
Inductive shell_cmd :=
| CIsMaster | CWhatsMyURI | CBuildinfo | CBuildInfo | CEndSessions | CGetCmdLineOpts | CGetLog
| CGetFreeMonitoringStatus | CReplSetGetStatus | CListCollections.
Definition cmd_name (c : shell_cmd) : bytes :=
  match c with
  | CIsMaster => str "isMaster" | CWhatsMyURI => str "whatsmyuri" | CBuildinfo => str "buildinfo" | CBuildInfo => str "buildInfo"
  | CEndSessions => str "endSessions" | CGetCmdLineOpts => str "getCmdLineOpts" | CGetLog => str "getLog"
  | CGetFreeMonitoringStatus => str "getFreeMonitoringStatus" | CReplSetGetStatus => str "replSetGetStatus"
  | CListCollections => str "listCollections"
  end.
(* 79-140 the document each handler responds with; addr is s.Address() *)
Definition cmd_document (addr : bytes) (c : shell_cmd) : go document :=
  match c with
  | CIsMaster => im_document (MkIM (MkER 1 []) 0 6)
  | CWhatsMyURI => sr_document k_you (MkSR (MkER 1 []) addr)
  | CBuildinfo | CBuildInfo => sr_document k_version (MkSR (MkER 1 []) (str "0.0.0"))
  | CGetLog => lr_document (MkLR (MkER 1 []) [])
  | _ => er_document (make_error_response false None)
  end.
(* the message a handler sends for a request with the op code t *)
Definition cmd_response (fuel : nat) (addr : bytes) (t : Z) (c : shell_cmd) : go wmsg :=
  d <- cmd_document addr c ;; response_to_message fuel t d.

Section Register.
Variable H : Type.
(* registry.go:15-34 with no other call under way *)
Definition reg_add (r : registry H) (s : scope) (h : H) : registry H * option gerr :=
  match reg_step (LAdd s (Some h)) r with
  | (MRun l, r) => match reg_step l r with (MDone (AddResult e), r) => (r, e) | (_, r) => (r, None) end
  | (MDone (AddResult e), r) => (r, e)
  | (_, r) => (r, None)
  end.
Fixpoint add_all (r : registry H) (l : list (scope * H)) : registry H * option gerr :=
  match l with
  | [] => (r, None)
  | (s, h) :: l => match reg_add r s h with (r, None) => add_all r l | (r, Some e) => (r, Some e) end
  end.
(* 52-76 registerHandlers; cmds are the commands in the order of the iteration over the map *)
Variable handler : shell_cmd -> H.
Definition cmd_scopes (cmds : list shell_cmd) : list (scope * H) :=
  flat_map (fun c => map (fun t => (MkScope t [] (cmd_name c) None, handler c)) [2010; 2013]) cmds.
End Register.
Arguments reg_add {H}. Arguments add_all {H}. Arguments cmd_scopes {H}.
Definition all_cmds : list shell_cmd :=
  [CIsMaster; CWhatsMyURI; CBuildinfo; CBuildInfo; CEndSessions; CGetLog; CReplSetGetStatus; CGetFreeMonitoringStatus;
   CListCollections; CGetCmdLineOpts].
