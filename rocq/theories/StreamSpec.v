(** Conversations with a serializer or a source of elements, each answer of which
    may be an error. *)
From Coq Require Import List.
Import ListNotations.

(** ** Serializers *)
Section Serializer.
  Context {W X Ok Err : Type}.

  (** The calls, and what is answered. *)
  Inductive call :=
  | CBegin (len : option nat)
  | CElem (x : X)
  | CEnd.
  Inductive answer :=
  | Accepted
  | Result (r : Ok)
  | Refused (e : Err).

  (** One serializer: its three methods. *)
  Context (begin : W -> option nat -> W * (unit + Err))
    (elem : W -> X -> W * (unit + Err)) (fin : W -> W * (Ok + Err)).
  Inductive says : W -> call -> answer -> W -> Prop :=
  | says_begin w n w' : begin w n = (w', inl tt) -> says w (CBegin n) Accepted w'
  | says_begin_no w n e w' : begin w n = (w', inr e) -> says w (CBegin n) (Refused e) w'
  | says_elem w x w' : elem w x = (w', inl tt) -> says w (CElem x) Accepted w'
  | says_elem_no w x e w' : elem w x = (w', inr e) -> says w (CElem x) (Refused e) w'
  | says_end w r w' : fin w = (w', inl r) -> says w CEnd (Result r) w'
  | says_end_no w e w' : fin w = (w', inr e) -> says w CEnd (Refused e) w'.
  (** A conversation, from one state to another. *)
  Inductive talk : W -> list (call * answer) -> W -> Prop :=
  | talk_nil w : talk w [] w
  | talk_cons w c a w' h w'' : says w c a w' -> talk w' h w'' -> talk w ((c, a) :: h) w''.

  (** The calls for the elements [l], in order. *)
  Definition script (l : list X) : list call :=
    CBegin (Some (length l)) :: map CElem l ++ [CEnd].
  Definition refused (a : answer) : Prop := exists e, a = Refused e.

  (** [l] was given from [w] to [w'] with result [r]: either all the calls were
      made, none was refused, and the result is the last answer; or they were made
      until the first refusal, which is the result. *)
  Definition given (l : list X) (w w' : W) (r : Ok + Err) : Prop :=
    exists h, talk w h w' /\
      ((exists o, r = inl o /\ map fst h = script l /\ (forall c a, In (c, a) h -> ~ refused a) /\
                  exists h', h = h' ++ [(CEnd, Result o)]) \/
       (exists e h' c rest, r = inr e /\ h = h' ++ [(c, Refused e)] /\
                  script l = map fst h' ++ c :: rest /\ forall c' a, In (c', a) h' -> ~ refused a)).

  (** The elements [l] are taken one after the other. *)
  Inductive accepts : W -> list X -> W -> Prop :=
  | accepts_nil w : accepts w [] w
  | accepts_cons w x w' l w'' : elem w x = (w', inl tt) -> accepts w' l w'' -> accepts w (x :: l) w''.
End Serializer.
Arguments call : clear implicits.
Arguments answer : clear implicits.

(** ** Sources *)
Section Source.
  Context {W X Err : Type} (next : W -> W * (option X + Err)).

  (** The next answers are the elements [l]. *)
  Inductive gives : W -> list X -> W -> Prop :=
  | gives_nil w : gives w [] w
  | gives_cons w x w' l w'' : next w = (w', inl (Some x)) -> gives w' l w'' -> gives w (x :: l) w''.

  (** What reading with at most [n] calls leads to, if [built l c] says that [c] is
      what one makes of the elements [l]: the elements before the end; or the first
      error; or the source goes on. *)
  Definition reads {C : Type} (built : list X -> C -> Prop) (n : nat) (w : W)
      (res : option (W * (C + Err))) : Prop :=
    exists l w1, gives w l w1 /\
      ((length l = n /\ res = None) \/
       (length l < n /\ exists w2 c, next w1 = (w2, inl None) /\ built l c /\ res = Some (w2, inl c)) \/
       (length l < n /\ exists w2 e, next w1 = (w2, inr e) /\ res = Some (w2, inr e))).
End Source.
