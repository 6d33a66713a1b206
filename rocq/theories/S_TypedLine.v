(** S_TypedLine.v -- the documented form of a line the host types to have a message transmitted; independent of the parser.
    [[time]:[status]:]data [comment], time decimal, status hexadecimal, data hexadecimal digits with spaces anywhere, a comment begins with '#' or ';'. *)
From Verif Require Import Base S_Message.

Definition decimal (c : Z) : Prop := 48 <= c <= 57.
Definition hexadecimal (c : Z) : Prop := decimal c \/ 97 <= c <= 102 \/ 65 <= c <= 70.
(** The two digits of each byte in order, spaces anywhere (also within a byte), upper or lower case. *)
Definition spells (data bs : list Z) : Prop :=
  Forall (fun c => c = 32 \/ hexadecimal c) data /\ Forall (fun b => 0 <= b < 256) bs /\ hexdigits data = flat_map (fun b => [b / 16; b mod 16]) bs.
(** No ':' in the comment of a line without time and status (C111). *)
Definition documented_line (line bs : list Z) : Prop := exists head data com, line = head ++ data ++ com /\ spells data bs /\
  (com = [] \/ exists c t, com = c :: t /\ (c = 35 \/ c = 59) /\ Forall is_char t) /\
  (head = [] /\ ~ In 58 com \/ exists t s, head = t ++ [58] ++ s ++ [58] /\ Forall decimal t /\ Forall hexadecimal s).
