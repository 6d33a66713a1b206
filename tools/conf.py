import re,math
src=open('/repo/pico/tests/uart_test.cpp').read()
td=re.search(r'testdata\[\] = \{(.*?)\};',src,re.S).group(1)
td=[int(x) for x in td.replace('\n',' ').split(',') if x.strip()]
def zl(l): 
    s='['+'; '.join(map(str,l))+']'
    out='';line=''
    for w in s.split(' '):
        if len(line)+len(w)>96: out+=line.rstrip()+'\n   '; line=''
        line+=w+' '
    return out+line.rstrip()
sins=[]
for f in [1,16,32,48,64,92,127]:
    sins.append([int(math.sin(j*2*3.141592/256*f)*100) for j in range(256)])
o='''(** Conformance.v -- the repository's own unit tests (pico/tests/*.cpp) replayed on the model.
    These are tests of the model, not properties: each [Example] runs one TEST() of the repository
    inside Coq and checks the value its EXPECT_* lines require.  Generated tables: the captured
    waveform of uart_test.cpp:10-877 and the truncated sine tables of firfilter_test.cpp:28-31.

    Not replayed: TEST(TxStateMachine, States) (tx_statemachine_test.cpp:73-119), which sends a
    message of Length 0 with uninitialised Data and expects the state to change after 8 echoed
    bytes; the code compares TxOffset with Length and cannot do that. *)
From Coq Require Import String.
From Verif Require Import Base M_ShiftReg M_Fifo M_Dsp M_Uart M_Message M_Tx.
Open Scope Z_scope.
Open Scope list_scope.

(** Run a [res]-valued step over a list, collecting outputs. *)
Fixpoint steps {S A B} (f : S -> A -> res (S * B)) (s : S) (l : list A) : res (S * list B) :=
  match l with
  | [] => Ok (s, [])
  | a :: t => let* (s1, b) := f s a in let* (s2, r) := steps f s1 t in Ok (s2, b :: r)
  end.
Definition snd_ok {A B} (r : res (A * B)) (p : B -> bool) : bool :=
  match r with Ok (_, b) => p b | UB _ => false end.

(** ** shiftreg_test.cpp *)
Definition sr_view (N : nat) (s : shiftreg Z) : list (res Z) := map (sr_at N s) (seq 0 N).
Example sr_initial :                                             (* 5-18 *)
  sr_view 3 (sr_new 3 0) = [Ok 0; Ok 0; Ok 0] /\\
  (let* s := sr_new_init 3 (repeat 0 6) [1; 2; 3] in Ok (sr_view 3 s)) = Ok [Ok 1; Ok 2; Ok 3].
Proof. split; vm_compute; reflexivity. Qed.
Example sr_shift :                                               (* 20-45 *)
  (let* s := sr_new_init 3 (repeat 0 6) [0; 0; 1] in
   let* s1 := sr_update_null 3 s 0 in let* s2 := sr_update_null 3 s1 0 in
   let* s3 := sr_update_null 3 s2 0 in
   Ok (map (sr_view 3) [s; s1; s2; s3])) =
  Ok [[Ok 0; Ok 0; Ok 1]; [Ok 0; Ok 1; Ok 0]; [Ok 1; Ok 0; Ok 0]; [Ok 0; Ok 0; Ok 0]].
Proof. vm_compute. reflexivity. Qed.
Example sr_oldest :                                              (* 47-60 *)
  (let* s1 := sr_update_null 3 (sr_new 3 0) 1 in let* s2 := sr_update_null 3 s1 2 in
   let* s3 := sr_update_null 3 s2 3 in Ok (sr_view 3 s3)) = Ok [Ok 1; Ok 2; Ok 3].
Proof. vm_compute. reflexivity. Qed.
Definition conv3 (b : list Z) : res Z :=
  let* s := sr_new_init 3 (repeat 0 6) [0; 0; 1] in
  let* t := sr_new_init 3 (repeat 0 6) b in sr_convolute 3 3 s t.
Example sr_convolve :                                            (* 72-107 *)
  map conv3 [[0; 0; 1]; [0; 1; 0]; [1; 0; 0]; [1; 1; -1]] = [Ok 1; Ok 0; Ok 0; Ok (-1)].
Proof. vm_compute. reflexivity. Qed.

(** ** resample_test.cpp *)
Fixpoint rs_pass (r : resample) (l : list Z) : list Z :=
  match l with
  | [] => []
  | x :: t => let '(r', o) := rs_update r x in
              match o with Some v => v :: rs_pass r' t | None => rs_pass r' t end
  end.
Definition rs_data : list Z := [0; 1; 2; 3; 4; 5; 6; 7; 8].
Example rs_tests :
  rs_pass (rs_new 0) rs_data = rs_data /\\
  rs_pass (rs_new 1) rs_data = [0; 2; 4; 6; 8] /\\
  rs_pass (rs_new 2) rs_data = [0; 3; 6].
Proof. split; [|split]; vm_compute; reflexivity. Qed.

(** ** fifo_test.cpp *)
Example ff_initial :                                             (* 5-13 *)
  map (ff_at 3 (ff_new_init 3 [1; 2; 3])) [0; 1; 2]%nat = [Ok 1; Ok 2; Ok 3].
Proof. vm_compute. reflexivity. Qed.
Definition ff_look (f : fifo Z) := (ff_length f, ff_empty f, ff_full 3 f).
Example ff_lengths :                                             (* 15-36 *)
  (let f0 := ff_new 3 0 in
   let* (f1, _) := ff_push 3 f0 2 in let* (f2, _) := ff_push 3 f1 3 in let* (f3, _) := ff_push 3 f2 4 in
   Ok (map ff_look [f0; f1; f2; f3])) =
  Ok [(0%nat, true, false); (1%nat, false, false); (2%nat, false, false); (3%nat, false, true)].
Proof. vm_compute. reflexivity. Qed.
Definition ff_do (f : fifo Z) (o : option Z) : res (fifo Z * option Z) :=
  match o with
  | Some x => let* (f', _) := ff_push 3 f x in Ok (f', None)
  | None => ff_pop 3 f
  end.
Example ff_push_pop :                                            (* 38-69; Some = Push, None = Pop *)
  (let* (_, out) := steps ff_do (ff_new 3 0)
     [None; Some 3; Some 4; Some 5; None; None; None; None; Some 6; None; Some 7; Some 8; Some 9;
      None; None; None] in Ok out) =
  Ok [None; None; None; None; Some 3; Some 4; Some 5; None; None; Some 6; None; None; None;
      Some 7; Some 8; Some 9].
Proof. vm_compute. reflexivity. Qed.

(** ** dc_block_test.cpp *)
Definition dc_input (i : nat) : Z := if (300 <? i)%nat && (i <? 310)%nat then 100 else 10.
Definition dc_fine (io : nat * Z) : bool :=
  let '(i, out) := io in
  if (i <? 300)%nat then true
  else if (300 <? i)%nat && (i <? 310)%nat then (out <? 92) && (84 <? out)
  else (out <? 1) && (-7 <? out).
Example dc_test :
  snd_ok (steps dc_update dc_new (map dc_input (seq 0 1024)))
    (fun out => forallb dc_fine (combine (seq 0 1024) out)) = true.
Proof. vm_compute. reflexivity. Qed.

(** ** firfilter_test.cpp: EXPECT on the root of the sum of squares, here squared. *)
Definition sines : list (list Z) := [
'''
o+=';\n'.join('  '+zl(s) for s in sins)+'].\n'
o+='''Definition energy (l : list Z) : Z := fold_left (fun a x => a + x * x) l 0.
Fixpoint fir_tests (f : fir) (ins : list (list Z)) : res (list Z) :=
  match ins with
  | [] => Ok []
  | l :: t => let* (f1, out) := steps fir_update f l in let* r := fir_tests f1 t in Ok (energy out :: r)
  end.
Example fir_test :
  match (let* f := fir_new (repeat 0 14) in fir_tests f sines) with
  | Ok [e1; e16; e32; e48; e64; e92; e127] =>
      (1100 * 1100 <? e1) && (1100 * 1100 <? e16) && (1000 * 1000 <? e32) && (e48 <? 850 * 850) &&
      (e64 <? 400 * 400) && (e92 <? 150 * 150) && (e127 <? 100 * 100)
  | _ => false
  end = true.
Proof. vm_compute. reflexivity. Qed.

(** ** uart_bit_detect_test.cpp (UARTBit<int16_t, 16>) *)
Definition ramp (lvl rest : Z) (n : nat) : list Z := 0 :: repeat lvl n ++ repeat rest (15 - n).
Fixpoint last_outs (b : uartbit) (ins : list (list Z)) : res (list Z) :=
  match ins with
  | [] => Ok []
  | l :: t => let* (b1, out) := steps (ub_update s16 16) b l in
              let* r := last_outs b1 t in Ok (last out 0 :: r)
  end.
Definition bd_test (hi lo err : Z) (ins : list (list Z)) : res (list Z) :=
  let* b := ub_new 16 hi lo err in last_outs b ins.
Example bd_real_high :                                           (* 10-42 *)
  bd_test 1400 600 224 [ramp 1400 599 8; ramp 1400 (-599) 8] = Ok [6206; 6206].
Proof. vm_compute. reflexivity. Qed.
Example bd_real_low :                                            (* 44-76 *)
  bd_test 1400 600 224 [ramp (-1400) (-599) 8; ramp (-1400) 599 8] = Ok [-6206; -6206].
Proof. vm_compute. reflexivity. Qed.
Example bd_high :                                                (* 78-122 *)
  bd_test 1 0 255 [ramp 1 0 8; ramp 1 0 7; ramp 1 0 6] = Ok [7; 7; 0].
Proof. vm_compute. reflexivity. Qed.
Example bd_low :                                                 (* 124-165 *)
  bd_test 1 0 255 [ramp (-1) 0 8; ramp (-1) 0 7; ramp (-1) 0 6] = Ok [-7; -7; 0].
Proof. vm_compute. reflexivity. Qed.
Example bd_error :                                               (* 168-224 *)
  bd_test 1 0 128 (map (ramp (-1) 0) [6; 5; 4; 3; 2]%nat) = Ok [-6; -5; -4; -3; 0].
Proof. vm_compute. reflexivity. Qed.
Definition at14 (b : uartbit) (v : Z) : res (uartbit * Z) :=
  let* (b1, out) := steps (ub_update s16 16) b (repeat v 16) in Ok (b1, nth 14 out 1).
Example bd_dc :                                                  (* 226-248 *)
  (let* b := ub_new 16 1400 600 224 in let* (b1, x) := at14 b 1400 in let* (_, y) := at14 b1 (-1400) in
   Ok (x, y)) = Ok (0, 0).
Proof. vm_compute. reflexivity. Qed.

(** ** uart_test.cpp *)
(** 880-931 -- genTestData *)
Definition pulse (v : Z) : list Z := repeat v 8 ++ repeat 0 8.
Fixpoint gen_bits (b : Z) (k : nat) (i : Z) (tog : Z) (par : Z) : list Z * Z * Z :=
  match k with
  | O => ([], tog, par)
  | S k' =>
      let one := Z.testbit b i in
      let '(r, tog', par') := gen_bits b k' (i + 1) (if one then tog else - tog) (if one then par + 1 else par) in
      ((if one then repeat 0 16 else pulse (3300 * tog)) ++ r, tog', par')
  end.
Definition gen_data (b : Z) (p : uart_parity) : list Z :=
  let '(bits, tog, par) := gen_bits b 8 0 (-1) 0 in
  repeat 0 16 ++ pulse 3300 ++ bits ++
  (match p with
   | PARITY_NONE => repeat 0 16
   | PARITY_EVEN => if Z.even par then pulse (3300 * tog) else repeat 0 16
   | PARITY_ODD => if Z.odd par then pulse (3300 * tog) else repeat 0 16
   end) ++ repeat 0 32.
(** The sample loop: out = 0 and err = false before every call, stop when done; counts Receiving(). *)
Fixpoint feed (b : uartbit) (u : uart) (l : list Z) (act : nat) : res (uartbit * uart * nat * option (Z * bool)) :=
  match l with
  | [] => Ok (b, u, act, None)
  | x :: t =>
      let* (b1, s) := bit_update b x in
      let* (u1, done, out, err) := ua_update u s 0 false in
      if done then Ok (b1, u1, act, Some (out, err))
      else feed b1 u1 t (if ua_receiving u1 then S act else act)
  end.
Fixpoint feed_all (b : uartbit) (u : uart) (ins : list (list Z)) : res (list (nat * option (Z * bool))) :=
  match ins with
  | [] => Ok []
  | l :: t => let* (b1, u1, act, r) := feed b u l 0 in
              let* rest := feed_all b1 u1 t in Ok ((act, r) :: rest)
  end.
Definition uart_test (p : uart_parity) (ins : list (list Z)) : res (list (nat * option (Z * bool))) :=
  let* b := bit_new in feed_all b (ua_new p) ins.
Definition bytes : list Z := map Z.of_nat (seq 0 256).
Definition decoded (active : nat) (r : res (list (nat * option (Z * bool)))) : bool :=
  match r with
  | Ok l => (length l =? 256)%nat &&
      forallb (fun x => match x with
        | (b, (act, Some (out, err))) => (active <? act)%nat && (out =? b) && negb err
        | _ => false end) (combine bytes l)
  | UB _ => false
  end.
Definition all_err (r : res (list (nat * option (Z * bool)))) : bool :=
  match r with
  | Ok l => (length l =? 256)%nat && forallb (fun x => match x with (_, Some (_, true)) => true | _ => false end) l
  | UB _ => false
  end.
Example uart_none : decoded 144 (uart_test PARITY_NONE (map (fun b => gen_data b PARITY_NONE) bytes)) = true.
Proof. vm_compute. reflexivity. Qed.
Example uart_even : decoded 160 (uart_test PARITY_EVEN (map (fun b => gen_data b PARITY_EVEN) bytes)) = true.
Proof. vm_compute. reflexivity. Qed.
Example uart_odd : decoded 160 (uart_test PARITY_ODD (map (fun b => gen_data b PARITY_ODD) bytes)) = true.
Proof. vm_compute. reflexivity. Qed.
(** Second halves of TestDecodeParityEven/Odd: frames of the wrong parity fed without the bit detector. *)
Fixpoint feed_raw (u : uart) (l : list Z) : res (uart * option (Z * bool)) :=
  match l with
  | [] => Ok (u, None)
  | x :: t => let* (u1, done, out, err) := ua_update u x 0 false in
              if done then Ok (u1, Some (out, err)) else feed_raw u1 t
  end.
Definition raw_test (p q : uart_parity) : res (list (nat * option (Z * bool))) :=
  let* (_, r) := steps feed_raw (ua_new p) (map (fun b => gen_data b q) bytes) in
  Ok (map (fun x => (0%nat, x)) r).
Example uart_even_wrong : all_err (raw_test PARITY_EVEN PARITY_ODD) = true.
Proof. vm_compute. reflexivity. Qed.
Example uart_odd_wrong : all_err (raw_test PARITY_ODD PARITY_EVEN) = true.
Proof. vm_compute. reflexivity. Qed.
Definition break_stop (l : list Z) : list Z := firstn 160 l ++ repeat 3300 8 ++ skipn 168 l.
Example uart_framing :                                           (* TestFramingError *)
  all_err (uart_test PARITY_NONE (map (fun b => break_stop (gen_data b PARITY_NONE)) bytes)) = true.
Proof. vm_compute. reflexivity. Qed.
Definition break_start (l : list Z) : list Z := firstn 16 l ++ repeat (-3300) 8 ++ skipn 24 l.
Example uart_polarity :                                          (* TestPolarityError *)
  all_err (uart_test PARITY_EVEN (map (fun b => break_start (gen_data b PARITY_EVEN)) bytes)) = true.
Proof. vm_compute. reflexivity. Qed.
(** TestPulseNoise: a spike of +2500/-2500 at every position. *)
Definition spike (n : nat) : list Z :=
  let d := gen_data 204 PARITY_ODD in
  firstn n d ++ [nth n d 0 + 2500; nth (S n) d 0 - 2500] ++ skipn (n + 2) d.
Example uart_noise :
  match uart_test PARITY_ODD (map (fun n => firstn 208 (spike n)) (seq 0 208)) with
  | Ok l => (length l =? 208)%nat && forallb (fun x => match x with (_, Some (204, false)) => true | _ => false end) l
  | UB _ => false
  end = true.
Proof. vm_compute. reflexivity. Qed.
(** TestCapturedTestData *)
Definition captured : list Z :=
  '''+zl(td)+'''.
Fixpoint feed_capture (lv : Z) (b : uartbit) (u : uart) (l : list Z) : res (list (Z * bool)) :=
  match l with
  | [] => Ok []
  | x :: t =>
      let* (lv1, s) := lv_update (fun z => z) lv x in
      let* (b1, s1) := bit_update b s in
      let* (u1, done, out, err) := ua_update u s1 255 false in
      let* r := feed_capture lv1 b1 u1 t in
      Ok (if done then (out, err) :: r else r)
  end.
Example uart_captured :
  (let* b := bit_new in feed_capture lv_new b (ua_new PARITY_EVEN) captured) =
  Ok [(0, false); (1, false); (2, false)].
Proof. vm_compute. reflexivity. Qed.

(** ** message_test.cpp *)
Example msg_ctor :                                               (* 5-14 *)
  (let* m := msg_make (repeat 0 32) 0 0 [1; 2; 3] 3 in Ok (firstn 3 (m_data m), m_length m)) = Ok ([1; 2; 3], 3%nat).
Proof. vm_compute. reflexivity. Qed.
Definition text (time status : Z) : res (list Z) :=
  let* m := msg_make (repeat 0 32) time status [1; 2; 3] 3 in
  let* l := msg_c_str m (repeat 0 128) in Ok (cstring_at l 0).
Example msg_cstr :                                               (* 22-33 *)
  text 1 2 = Ok (str "1:02:010203") /\\
  text 100000000 0 = Ok (str "100000000:00:010203") /\\
  text 100000000 255 = Ok (str "100000000:ff:010203").
Proof. split; [|split]; vm_compute; reflexivity. Qed.
(** The tests run on a host with 64-bit long; the firmware's long has 32 bits. *)
Definition host_pc : platform := {| char_signed := true; long_max := 9223372036854775807 |}.
Definition parsed (s : string) : res (Z * Z * list Z) :=
  let* m := msg_parse host_pc (repeat 0 32) (str s) in
  Ok (m_time m, m_status m, firstn (m_length m) (m_data m)).
Example msg_parsing :                                            (* 35-78 *)
  parsed "0000000100000000:ffffffff:010203" = Ok (100000000, 4294967295, [1; 2; 3]) /\\
  parsed "::010203" = Ok (0, 0, [1; 2; 3]) /\\
  parsed "010203" = Ok (0, 0, [1; 2; 3]) /\\
  parsed ";010203" = Ok (0, 0, []) /\\
  parsed "010203;04" = Ok (0, 0, [1; 2; 3]) /\\
  parsed "01 02  03  ;04" = Ok (0, 0, [1; 2; 3]) /\\
  parsed "::" = Ok (0, 0, []).
Proof. repeat apply conj; vm_compute; reflexivity. Qed.

(** ** tx_statemachine_test.cpp *)
Definition sm0 : txsm * pio_hw := tx_new hw_new (repeat 0 32) (repeat 0 32).
Example tx_initial :                                             (* 5-16 *)
  let t := fst sm0 in
  (tx_is_idle t, tx_is_transmitting t, tx_done t, t_err t, m_length (t_tx t), m_length (t_rx t)) =
  (true, false, false, false, 0%nat, 0%nat).
Proof. vm_compute. reflexivity. Qed.
Example tx_uart_error :                                          (* 18-34 *)
  (let h := HW true [] [] false true in
   let* (t1, h1) := tx_wake 0 (fst sm0) h (msg_new (repeat 0 32)) in
   let* (t2, h2) := tx_update host_pc 0 t1 h1 false false false 0 in
   Ok (t_err t2, m_length (t_tx t2), m_length (t_rx t2))) = Ok (true, 0%nat, 0%nat).
Proof. vm_compute. reflexivity. Qed.
Example tx_wakes :                                               (* 36-48 *)
  (let* (t1, _) := tx_wake 0 (fst sm0) hw_new (msg_new (repeat 0 32)) in
   Ok (tx_is_idle t1, tx_is_transmitting t1)) = Ok (false, true).
Proof. vm_compute. reflexivity. Qed.
Fixpoint busy_for (k : nat) (now : Z) (t : txsm) (h : pio_hw) : res bool :=
  match k with
  | O => Ok false
  | S k' =>
      let* (t1, h1) := tx_update host_pc now t h true false false 0 in
      if t_err t1 then Ok true else busy_for k' (now + 1000) t1 h1
  end.
Example tx_line_busy :                                           (* 50-74 *)
  (let* (t1, h1) := tx_wake 0 (fst sm0) hw_new (msg_new (repeat 0 32)) in busy_for 99 0 t1 h1) = Ok true.
Proof. vm_compute. reflexivity. Qed.
'''
open('/verif/rocq/theories/Conformance.v','w').write(o)
