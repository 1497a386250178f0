(** C76: what is refused is handed back, and the messages say what it was. *)
From Coq Require Import List NArith Bool Ascii String.
Import ListNotations.
From Verif Require Import TextModel BlankIdSpec WriteSpec DebugModel DebugSpec DebugRunProofs ErrorModel
  ErrorSpec ErrorProofs.
Local Open Scope N_scope.

(** [BlankId::new], [BlankIdBuf::new], [from_str]; [from_suffix]. *)
Theorem c76_refused_returned : forall s,
  (accepted s -> blank_try_new s = inl s /\ blank_try_from_str s = inl s) /\
  (~ accepted s -> blank_try_new s = inr s /\ blank_try_from_str s = inr s) /\
  (accepted (chars "_:" ++ s) -> blank_try_from_suffix s = inl (chars "_:" ++ s)) /\
  (~ accepted (chars "_:" ++ s) -> blank_try_from_suffix s = inr (chars "_:" ++ s)).
Proof. exact refused_returned. Qed.
Print Assumptions c76_refused_returned.

Example c76_refused_ex : accepted (chars "_:a") /\ ~ accepted (chars "a b").
Proof.
  split.
  - now apply try_new_spec.
  - now apply try_new_spec.
Qed.

(** Deserialization accepts the identifiers given as strings, *)
Theorem c76_deserialize_accepts : forall special v b, blank_visit special v = inl b <->
  accepted b /\ (v = VString b \/ v = VStr b \/ v = VBorrowedStr b).
Proof. exact visit_accepts. Qed.
Print Assumptions c76_deserialize_accepts.

(** quotes the string that it refuses, *)
Theorem c76_deserialize_refuses : forall special v s, found_text v = Some s -> ~ accepted s ->
  exists t, quoted special s t /\
    blank_visit special v = inr (complaint (chars "value") (chars "string " ++ t)).
Proof. exact refused_string. Qed.
Print Assumptions c76_deserialize_refuses.

(** and names what is no string at all. *)
Theorem c76_deserialize_other : forall special v, found_text v = None ->
  exists t, found_other v t /\ blank_visit special v = inr (complaint (chars "type") t).
Proof. exact refused_type. Qed.
Print Assumptions c76_deserialize_other.

(** The message tells which string was refused. *)
Theorem c76_messages_differ : forall special v w s t m,
  found_text v = Some s -> found_text w = Some t ->
  blank_visit special v = inr m -> blank_visit special w = inr m -> s = t.
Proof. exact messages_differ. Qed.
Print Assumptions c76_messages_differ.

Example c76_message_ex : blank_visit (fun _ => false) (VStr (chars "a b")) =
  inr (chars "invalid value: string " ++ [34] ++ chars "a b" ++ [34] ++ chars ", expected blank node identifier") /\
  blank_visit (fun _ => false) (VUnsigned 12) =
  inr (chars "invalid type: integer `12`, expected blank node identifier").
Proof. split; vm_compute; reflexivity. Qed.

(** [Debug] of [InvalidBlankId], [Debug] and [Display] of [QuadExportFailed]. *)
Theorem c76_invalid_debug : forall E (d : E -> dval) (s : bool -> E -> text),
  (forall e, shows (d e) (fun p => s p e)) ->
  forall e, shows (d_invalid d e) (fun p => shown p (Tuple "InvalidBlankId" [leaf s e])).
Proof. exact @invalid_text. Qed.
Print Assumptions c76_invalid_debug.

Theorem c76_invalid_tells : forall E (d : E -> dval) class, has_ascii class -> tells class d ->
  tells class (d_invalid d).
Proof. exact @invalid_tells. Qed.
Print Assumptions c76_invalid_tells.

Theorem c76_export_debug : forall E (d : E -> dval) (s : bool -> E -> text),
  (forall e, shows (d e) (fun p => s p e)) ->
  forall x, shows (d_export d x) (fun p => shown p (export_tree (leaf s) x)).
Proof. exact @export_debug. Qed.
Print Assumptions c76_export_debug.

Theorem c76_export_tells : forall E (d : E -> dval) class, has_ascii class -> tells class d ->
  tells class (d_export d).
Proof. exact @export_tells. Qed.
Print Assumptions c76_export_tells.

Theorem c76_export_display : forall E (d : E -> forall W, writer W -> W -> W * bool) (s : E -> text),
  (forall e, writes (fun W wr w => Some (d e W wr w)) (s e)) ->
  forall x, writes (fun W wr w => Some (w_export d x W wr w)) (export_text s x).
Proof. exact @export_display. Qed.
Print Assumptions c76_export_display.

(** The message of an export error tells the component, and its error if the message
    of that one does. *)
Theorem c76_export_differ : forall E (d : E -> forall W, writer W -> W -> W * bool) (s : E -> text),
  (forall e, writes (fun W wr w => Some (d e W wr w)) (s e)) -> (forall e f, s e = s f -> e = f) ->
  forall x y t, writes (fun W wr w => Some (w_export d x W wr w)) t ->
                writes (fun W wr w => Some (w_export d y W wr w)) t -> x = y.
Proof. exact @export_differ. Qed.
Print Assumptions c76_export_differ.

Example c76_export_ex :
  export_text (fun n => dec n) (FGraph 7) = chars "invalid graph label: 7" /\
  w_export (fun n W wr => d_str (dec n) W wr false) (FGraph 7) _ (bounded 9) [] =
    (chars "invalid g", false) /\
  tells (fun c => c <> 10) (fun n : N => d_str (dec n)).
Proof.
  split; [reflexivity|]. split; [vm_compute; reflexivity|].
  apply numbers_tell. intros c H ->. now destruct H.
Qed.
