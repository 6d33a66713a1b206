(** S_Message.v -- the text format of messages, independent of the model. *)
From Verif Require Import Base.

(** ** Numerals *)
(** Character of a digit 0..15, lower case. *)
Definition digit (d : Z) : Z := if d <? 10 then 48 + d else 87 + d.
Definition value_of (base : Z) (ds : list Z) : Z := fold_left (fun a d => a * base + d) ds 0.
(** [numeral base n t]: [t] is the shortest numeral of [n]. *)
Definition numeral (base n : Z) (t : list Z) : Prop :=
  exists ds, t = map digit ds /\ Forall (fun d => 0 <= d < base) ds /\ value_of base ds = n /\
    ds <> [] /\ (hd 0 ds = 0 -> ds = [0]).
(** At least two digits, padded with '0'. *)
Definition numeral2 (n : Z) (t : list Z) : Prop :=
  exists t0, numeral 16 n t0 /\ t = (if (length t0 <? 2)%nat then 48 :: t0 else t0).
(** The two hex digits of a byte. *)
Definition hex2 (b : Z) : list Z := [digit (b / 16); digit (b mod 16)].

(** [formats time status data text]: decimal time, ':', hex status, ':', hex data. *)
Definition formats (time status : Z) (data text : list Z) : Prop :=
  exists t s, numeral 10 time t /\ numeral2 status s /\ text = t ++ [58] ++ s ++ [58] ++ flat_map hex2 data.

(** ** Parsing *)
(** Fields separated by ':'. *)
Fixpoint split (l : list Z) : list (list Z) :=
  match l with
  | [] => [[]]
  | c :: t => if c =? 58 then [] :: split t
              else match split t with f :: fs => (c :: f) :: fs | [] => [[c]] end
  end.
(** Part before a comment ('#' or ';'). *)
Fixpoint before_comment (l : list Z) : list Z :=
  match l with
  | [] => []
  | c :: t => if (c =? 35) || (c =? 59) then [] else c :: before_comment t
  end.
Definition hexval (c : Z) : option Z :=
  if (48 <=? c) && (c <=? 57) then Some (c - 48)
  else if (97 <=? c) && (c <=? 102) then Some (c - 87)
  else if (65 <=? c) && (c <=? 70) then Some (c - 55)
  else None.
(** Values of the hex digits of a text, everything else ignored. *)
Definition hexdigits (l : list Z) : list Z :=
  flat_map (fun c => match hexval c with Some v => [v] | None => [] end) l.
(** Digit pairs to bytes; a dangling digit is dropped. *)
Fixpoint pair_up (l : list Z) : list Z :=
  match l with a :: b :: t => (16 * a + b) :: pair_up t | _ => [] end.
(** The bytes a data text stands for. *)
Definition data_bytes (l : list Z) : list Z := pair_up (hexdigits (before_comment l)).
(** The firmware's reading of a data text: every character that is neither a space nor a hex digit
    counts as the value 255. *)
Definition firmware_digits (l : list Z) : list Z :=
  flat_map (fun c => if c =? 32 then [] else match hexval c with Some v => [v] | None => [255] end) l.
(** ... and how it pairs those values (the same as [pair_up] for values below 16). *)
Fixpoint pairb (l : list Z) : list Z :=
  match l with a :: b :: t => u8 (Z.lor (u8 (Z.shiftl a 4)) b) :: pairb t | _ => [] end.
(** The field with the data as documented: after the last of at most two colons. *)
Definition data_field (line : list Z) : list Z :=
  match split line with [] => [] | [a] => a | [_; b] => b | _ :: _ :: c :: _ => c end.
(** The field the code takes: with a single colon it is the part before it. *)
Definition data_field_used (line : list Z) : list Z :=
  match split line with _ :: _ :: c :: _ => c | a :: _ => a | [] => [] end.
(** A character of a C string / of a received line. *)
Definition is_char (c : Z) : Prop := 0 < c < 256.
(** Only hex digits and spaces before the comment. *)
Definition plain (c : Z) : bool := (c =? 32) || match hexval c with Some _ => true | None => false end.

(** ** Append / Clear *)
Inductive msg_op : Set := Append (b : Z) | Clear.
(** The bytes held: the first 32 appended since the last Clear. *)
Definition held (l : list Z) (o : msg_op) : list Z :=
  match o with
  | Append b => if (length l <? 32)%nat then l ++ [b] else l
  | Clear => []
  end.

(** ** Numbers as the C library reads them *)
Definition blank (c : Z) : Prop := c = 32 \/ 9 <= c <= 13.
(** [begins P t]: the text begins with a character that satisfies [P]. *)
Definition begins (P : Z -> Prop) (t : list Z) : Prop := exists c r, t = c :: r /\ P c.
Definition digit_in (base : Z) (c d : Z) : Prop := hexval c = Some d /\ d < base.
(** [reads base t v]: blanks, an optional sign, for hexadecimal an optional 0x, and digits -- each as many as there
    are --, then anything; no digits mean 0. *)
Definition reads (base : Z) (t : list Z) (v : Z) : Prop := exists sp sg pre ds rest vs,
  t = sp ++ sg ++ pre ++ ds ++ rest /\
  Forall blank sp /\ ~ begins blank (sg ++ pre ++ ds ++ rest) /\
  (sg = [43] \/ sg = [45] \/ sg = [] /\ ~ begins (fun c => c = 43 \/ c = 45) (pre ++ ds ++ rest)) /\
  (base = 16 /\ (pre = [48; 120] \/ pre = [48; 88]) \/
   pre = [] /\ (base = 16 -> ~ exists r, ds ++ rest = 48 :: 120 :: r \/ ds ++ rest = 48 :: 88 :: r)) /\
  Forall2 (digit_in base) ds vs /\ ~ begins (fun c => exists d, digit_in base c d) rest /\
  v = if list_eq_dec Z.eq_dec sg [45] then - value_of base vs else value_of base vs.
(** Limited to the range of a signed type with largest value [max]. *)
Definition limited (max v : Z) : Z := if v <? - max - 1 then - max - 1 else if max <? v then max else v.
