(** M_Standalone.v -- model of pico/src/standalone.{hpp,cpp}.
    Time is the RP2040's 64-bit microsecond counter as an unbounded [Z] (it does not wrap
    within 580000 years); make_timeout_time_ms(t) = now + 1000 t; time_reached(t) = now >= t. *)
From Verif Require Import Base M_Message.

Definition CMD_REQUEST : Z := 0.       (* standalone.hpp:4  *)
Definition CMD_ANSWER : Z := 64.       (* standalone.hpp:5: 0x40 *)
Definition TYPE_SENSE : Z := 48.       (* standalone.hpp:7: 0x30 *)
Definition TYPE_STATUS : Z := 49.      (* standalone.hpp:8: 0x31 *)
Definition DEFAULT_ADDR : Z := 240.    (* standalone.hpp:11: 0xF0 *)
Definition TIMEOUT_IDLE_MS : Z := 100.       (* standalone.cpp:7 *)
Definition TIMEOUT_BUS_SCAN : Z := 2000.     (* standalone.cpp:8 *)
Definition TIMEOUT_OPERATION : Z := 600000.  (* standalone.cpp:9 *)

Definition timeout_ms (now ms : Z) : Z := now + ms * 1000.

(** standalone.hpp:52-56 *)
Inductive ctrl_state : Set := C_IDLE | C_BUS_SCAN | C_OPERATING.

(** standalone.hpp:59-68 *)
Record ctrl : Set := CTRL {
  c_answer : message; c_addr : Z; c_ready : bool; c_state : ctrl_state; c_timer : Z }.

(** standalone.cpp:184-191: 8 iterations of the bit loop; the accumulators are uint32_t. *)
Fixpoint crc_bits (k : nat) (crc c : Z) : Z :=
  match k with
  | O => crc
  | S k' =>
      let crc' := if Z.odd (Z.lxor crc c) then Z.lxor (Z.shiftr crc 1) 217 else Z.shiftr crc 1 in
      crc_bits k' crc' (Z.shiftr c 1)
  end.
(** standalone.cpp:182-192: outer loop over Data[j], [k] iterations left. *)
Fixpoint crc_loop (data : list Z) (j k : nat) (crc : Z) : res Z :=
  match k with
  | O => Ok crc
  | S k' =>
      let* v := aget data j in
      crc_loop data (S j) k' (crc_bits 8 crc v)
  end.
(** standalone.cpp:180-194 -- GenCRC *)
Definition gen_crc (data : list Z) (len : nat) : res Z :=
  let* c := crc_loop data 0 len 0 in Ok (u8 c).

(** standalone.cpp:14-21.  The instance is static (main.cpp:97), so Answer.Data starts zeroed. *)
Definition ctrl_new (now : Z) : res ctrl :=
  let* d0 := aset (repeat 0 MAX_PACKET_SIZE) 0 CMD_ANSWER in
  let* d1 := aset d0 1 (u8 DEFAULT_ADDR) in
  Ok (CTRL (MSG 0 0 d1 0) DEFAULT_ADDR false C_IDLE (timeout_ms now TIMEOUT_IDLE_MS)).

(** standalone.cpp:25-50 -- Check *)
Definition ctrl_check (now : Z) (c : ctrl) : ctrl :=
  match c_state c with
  | C_IDLE =>
      if c_timer c <=? now
      then CTRL (c_answer c) (c_addr c) (c_ready c) C_BUS_SCAN (timeout_ms now TIMEOUT_BUS_SCAN)
      else c
  | C_BUS_SCAN =>
      if c_timer c <=? now
      then CTRL (c_answer c) (c_addr c) (c_ready c) C_OPERATING (timeout_ms now TIMEOUT_OPERATION)
      else c
  | C_OPERATING =>
      if c_timer c <=? now
      then CTRL (c_answer c) (c_addr c) false C_IDLE (timeout_ms now TIMEOUT_IDLE_MS)
      else c
  end.

(** standalone.cpp:86-109 -- NeedToHandlePacket *)
Definition need_to_handle (addr : Z) (m : message) : res bool :=
  let* d0 := aget (m_data m) 0 in
  if negb (d0 =? CMD_REQUEST) then Ok false else
  let* d1 := aget (m_data m) 1 in
  if negb (d1 =? addr) then Ok false else
  let* d2 := aget (m_data m) 2 in
  Ok ((d2 =? TYPE_SENSE) || (d2 =? TYPE_STATUS)).

(** standalone.cpp:117-119 / 125-127: for (i = 3; ...) Answer.Data[i] = in->Data[i];
    [k] iterations left. *)
Fixpoint answer_copy (src : list Z) (i k : nat) (dst : list Z) : res (list Z) :=
  match k with
  | O => Ok dst
  | S k' =>
      let* v := aget src i in
      let* d := aset dst i v in
      answer_copy src (S i) k' d
  end.

(** standalone.cpp:113-140 -- GenerateAnswer *)
Definition generate_answer (c : ctrl) (m : message) : res ctrl :=
  let a := c_answer c in
  let* d2 := aget (m_data m) 2 in
  let finish (d : list Z) (len : nat) : res ctrl :=
    let* crc := gen_crc d (len - 1) in
    let* d' := aset d (len - 1) crc in
    Ok (CTRL (MSG (m_status a) (m_time a) d' len) (c_addr c) true (c_state c) (c_timer c)) in
  if d2 =? TYPE_SENSE then
    let* x := aset (m_data a) 2 TYPE_SENSE in
    let* y := answer_copy (m_data m) 3 14 x in      (* i = 3 .. 16 *)
    finish y 18%nat
  else if d2 =? TYPE_STATUS then
    let* x := aset (m_data a) 2 TYPE_STATUS in
    let* y := answer_copy (m_data m) 3 12 x in      (* i = 3 .. 14 *)
    let* z := aset y 7 180 in                       (* 0xB4 *)
    let* w := aset z 8 16 in                        (* 0x10 *)
    finish w 16%nat
  else Ok (CTRL a (c_addr c) false (c_state c) (c_timer c)).

(** standalone.cpp:54-84 -- Receive *)
Definition ctrl_receive (c : ctrl) (m : message) : res ctrl :=
  if (m_length m <=? 3)%nat then Ok c else
  match c_state c with
  | C_IDLE => Ok c
  | C_BUS_SCAN =>
      let* d0 := aget (m_data m) 0 in
      let* d1 := aget (m_data m) 1 in
      let* d2 := aget (m_data m) 2 in
      if (d0 =? CMD_ANSWER) && (d1 =? c_addr c) && (d2 =? TYPE_SENSE) then
        let* crc := gen_crc (m_data m) (m_length m - 1) in
        let* last := aget (m_data m) (m_length m - 1) in
        if crc =? last then
          let a1 := c_addr c + 1 in
          let addr := if 241 <? a1 then DEFAULT_ADDR else a1 in
          let* x := aset (m_data (c_answer c)) 1 (u8 addr) in
          let* k := gen_crc x 17 in
          let* y := aset x 17 k in
          Ok (CTRL (MSG (m_status (c_answer c)) (m_time (c_answer c)) y (m_length (c_answer c)))
                   addr (c_ready c) (c_state c) (c_timer c))
        else Ok c
      else Ok c
  | C_OPERATING =>
      let* need := need_to_handle (c_addr c) m in
      let* ok :=
        if need then
          let* crc := gen_crc (m_data m) (m_length m - 1) in
          let* last := aget (m_data m) (m_length m - 1) in
          Ok (crc =? last)
        else Ok false in
      if ok then generate_answer c m
      else Ok (CTRL (c_answer c) (c_addr c) false (c_state c) (c_timer c))
  end.

(** standalone.cpp:145-147 *)
Definition ctrl_has_tx (c : ctrl) : bool := c_ready c.

(** standalone.cpp:151-157 -- TxAnswer(out): copies Length and Data, leaves Status/Time of
    [out] alone and resets Ready. *)
Definition ctrl_tx_answer (c : ctrl) (out : message) : res (ctrl * message) :=
  let* d := copy_loop (m_data (c_answer c)) 0 (m_length (c_answer c)) (m_data out) in
  Ok (CTRL (c_answer c) (c_addr c) false (c_state c) (c_timer c),
      MSG (m_status out) (m_time out) d (m_length (c_answer c))).

(** standalone.cpp:159-164 *)
Definition ctrl_bus_collision (now : Z) (c : ctrl) : ctrl :=
  CTRL (c_answer c) (c_addr c) false C_IDLE (timeout_ms now TIMEOUT_IDLE_MS).

(** standalone.cpp:167-176 -- IsTxAnswer *)
Definition is_tx_answer (c : ctrl) (m : message) : res bool :=
  let* d0 := aget (m_data m) 0 in
  if negb (d0 =? CMD_ANSWER) then Ok false else
  let* d1 := aget (m_data m) 1 in
  if d1 =? c_addr c then Ok false else
  let* d2 := aget (m_data m) 2 in
  Ok ((d2 =? TYPE_SENSE) || (d2 =? TYPE_STATUS)).
