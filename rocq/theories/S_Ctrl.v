(** S_Ctrl.v -- the emulated external controller, independent of the model.  Times in us. *)
From Verif Require Import Base S_Crc.

Inductive phase : Set := Idle | Scan | Operation.
Definition duration (p : phase) : Z := match p with Idle => 100000 | Scan => 2000000 | Operation => 600000000 end.
Definition next (p : phase) : phase := match p with Idle => Scan | Scan => Operation | Operation => Idle end.

(** A received packet: 32 byte cells of which the first [p_len] are the packet. *)
Record packet : Set := PKT { p_len : nat; p_cells : list Z }.
Definition packet_ok (p : packet) : Prop := length (p_cells p) = 32%nat /\ (p_len p <= 32)%nat /\ bytes (p_cells p).
Definition p_bytes (p : packet) : list Z := firstn (p_len p) (p_cells p).

(** [starts p a b c]: more than 3 bytes, beginning with a, b, c, and with a correct checksum. *)
Definition starts (p : packet) (a b c : Z) : Prop :=
  (3 < p_len p)%nat /\ (exists rest, p_bytes p = a :: b :: c :: rest) /\ valid (p_bytes p).
(** A request to address [addr]. *)
Definition request (addr : Z) (p : packet) : Prop := starts p 0 addr 48 \/ starts p 0 addr 49.
(** The answer of another controller at address [addr]. *)
Definition conflict (addr : Z) (p : packet) : Prop := starts p 64 addr 48.

Definition cells (p : packet) (i n : nat) : list Z := firstn n (skipn i (p_cells p)).
(** The answer to a request: header, copied bytes, checksum. *)
Definition answer (addr : Z) (p : packet) (a : list Z) : Prop := exists body c, a = body ++ [c] /\ checksum body c /\
  ((starts p 0 addr 48 /\ body = [64; addr; 48] ++ cells p 3 14) \/
   (starts p 0 addr 49 /\ body = [64; addr; 49] ++ cells p 3 4 ++ [180; 16] ++ cells p 9 6)).

Record controller : Set := CT { k_phase : phase; k_since : Z; k_addr : Z; k_pending : option (list Z) }.
Definition controller0 (t0 : Z) : controller := CT Idle t0 240 None.

(** Calls; [Take] hands the answer out. *)
Inductive call : Set := Check | Receive (p : packet) | Collision | Take.

(** [step now c s s' o]: call [c] at time [now] takes [s] to [s'] and hands out [o]. *)
Definition step (now : Z) (c : call) (s s' : controller) (o : option (list Z)) : Prop :=
  match c with
  | Check => o = None /\
      if k_since s + duration (k_phase s) <=? now
      then s' = CT (next (k_phase s)) now (k_addr s) (match k_phase s with Operation => None | _ => k_pending s end)
      else s' = s
  | Collision => o = None /\ s' = CT Idle now (k_addr s) None
  | Take => o = k_pending s /\ s' = CT (k_phase s) (k_since s) (k_addr s) None
  | Receive p => o = None /\
      ((p_len p <= 3)%nat -> s' = s) /\
      ((3 < p_len p)%nat ->
        match k_phase s with
        | Idle => s' = s
        | Scan =>
            (conflict (k_addr s) p -> s' = CT Scan (k_since s) (481 - k_addr s) (k_pending s)) /\
            (~ conflict (k_addr s) p -> s' = s)
        | Operation =>
            (request (k_addr s) p -> exists a, answer (k_addr s) p a /\ s' = CT Operation (k_since s) (k_addr s) (Some a)) /\
            (~ request (k_addr s) p -> s' = CT Operation (k_since s) (k_addr s) None)
        end)
  end.
Inductive steps : controller -> list (Z * call) -> controller -> list (option (list Z)) -> Prop :=
| steps_nil s : steps s [] s []
| steps_cons s now c s1 o h s2 os : step now c s s1 o -> steps s1 h s2 os -> steps s ((now, c) :: h) s2 (o :: os).

(** Times do not decrease. *)
Fixpoint ordered (t : Z) (h : list (Z * call)) : Prop :=
  match h with [] => True | (u, _) :: r => t <= u /\ ordered u r end.
Definition call_ok (e : Z * call) : Prop := match snd e with Receive p => packet_ok p | _ => True end.
