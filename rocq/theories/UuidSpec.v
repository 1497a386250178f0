(** UUIDs as URNs: RFC 4122, section 3 (text) and section 4.1 (version and variant). *)
From Coq Require Import List NArith Bool String.
Import ListNotations.
From Verif Require Import TextModel.
Open Scope N_scope.

(** Sixteen bytes. *)
Definition is_uuid (b : list N) : Prop := List.length b = 16%nat /\ Forall (fun x => x < 256) b.

(** The four high bits of the seventh byte, the two high bits of the ninth. *)
Definition version (b : list N) : N := nth 6 b 0 / 16.
Definition variant (b : list N) : N := nth 8 b 0 / 64.

(** A lower case hexadecimal digit. *)
Definition lower_value (c : N) : option N :=
  if (48 <=? c) && (c <=? 57) then Some (c - 48)
  else if (97 <=? c) && (c <=? 102) then Some (c - 87)
  else None.

(** [n] bytes of two digits each, and the rest of the text. *)
Fixpoint read_bytes (n : nat) (t : text) : option (list N * text) :=
  match n, t with
  | O, _ => Some ([], t)
  | S n, h :: l :: t =>
      match lower_value h, lower_value l, read_bytes n t with
      | Some h, Some l, Some (b, t) => Some (16 * h + l :: b, t)
      | _, _, _ => None
      end
  | _, _ => None
  end.

Fixpoint read_word (w t : text) : option text :=
  match w, t with
  | [], _ => Some t
  | c :: w, d :: t => if c =? d then read_word w t else None
  | _, _ => None
  end.

(** Groups of [ns] bytes, separated by hyphens, to the end of the text. *)
Fixpoint read_groups (ns : list nat) (t : text) : option (list N) :=
  match ns with
  | [] => match t with [] => Some [] | _ => None end
  | n :: ns =>
      match read_bytes n t with
      | Some (b, t) =>
          match ns with
          | [] => match t with [] => Some b | _ => None end
          | _ =>
              match read_word (chars "-") t with
              | Some t => option_map (app b) (read_groups ns t)
              | None => None
              end
          end
      | None => None
      end
  end.

(** urn:uuid:xxxxxxxx-xxxx-xxxx-xxxx-xxxxxxxxxxxx *)
Definition read_urn (t : text) : option (list N) :=
  match read_word (chars "urn:uuid:") t with
  | Some t => read_groups [4; 2; 2; 2; 6]%nat t
  | None => None
  end.

(** The bits that version and variant leave free. *)
Definition free_bits (b : list N) : list N :=
  firstn 6 b ++ [nth 6 b 0 mod 16; nth 7 b 0; nth 8 b 0 mod 64] ++ skipn 9 b.
