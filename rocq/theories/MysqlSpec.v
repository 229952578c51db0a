(** MySQL packets. *)
From Verif Require Import Base SqlSpec.
Open Scope string_scope. Open Scope list_scope. Open Scope Z_scope.

(** three bytes of length and one of sequence number, then the command or the header byte *)
Definition packet (h : bytes) (command : Z) (body : bytes) : bytes := h ++ [command] ++ body.
Definition COM_QUIT := 1.
Definition COM_QUERY := 3.
Definition COM_STMT_PREPARE := 22.
(** the client sends query attributes: no parameters, one set *)
Definition noParameters : bytes := [0; 1].
(** text that begins, up to case, with one of the nine operations *)
Definition statement (s : bytes) : Prop := exists op ks w r, In (op, ks) operations /\ s = w ++ r /\ spells w op.
(** an error packet: code in little endian order; since protocol 4.1 with '#' and a state of five characters *)
Definition errorPacket (h : bytes) (code : Z) (body : bytes) : bytes := packet h 255 ([code mod 256; code / 256] ++ body).
Definition marked (state text : bytes) : bytes := [35] ++ state ++ text.
