(** D_Core1.v -- drivers: core1's sample loop as observable steps. *)
From Verif Require Import Base M_ShiftReg M_Dsp M_Uart M_Adc M_Core1 S_Core1.

(** One bit-detector sample, observed as Receiving() before the sample and the event flags. *)
Definition line_obs (s : linest) (p : Z) : res (linest * obs) :=
  let* (s', e) := line_step s p in Ok (s', (ua_receiving (ls_uart s), e)).

(** One ADC sample through the whole chain, observed the same way. *)
Definition core1_obs (s : core1) (x : Z) : res (core1 * obs) :=
  let* (s', e) := core1_sample s x in Ok (s', (ua_receiving (ls_uart (k_ls s)), e)).

(** The chain behind the DC blocker: Level -> bit detector -> line tracking and byte receiver
    (main.cpp:170-201). *)
Record lchain : Set := LChain { lc_level : Z; lc_bit : uartbit; lc_ls : linest }.
Definition lchain_new (e0 : bool) : res lchain :=
  let* b := bit_new in Ok (LChain lv_new b (ls_new e0)).
Definition lchain_step (c : lchain) (x : Z) : res (lchain * event) :=
  let* (lv, y) := lv_update (fun z => z) (lc_level c) x in
  let* (b, p) := bit_update (lc_bit c) y in
  let* (s, e) := line_step (lc_ls c) p in
  Ok (LChain lv b s, e).

(** The whole loop of core1 (main.cpp:136-202): state is the chain and the pending Core1Data; input
    is whether the inter-core FIFO has room and what the ADC delivers; output: the event produced in this
    iteration, what was pushed, and whether FifoErr was raised. *)
Definition core1_loop (st : core1 * event) (i : bool * adc_in)
  : res ((core1 * event) * (event * option event * bool)) :=
  let* (s', pend', pushed, ferr) := core1_iter (fst st) (snd st) (fst i) (snd i) in
  Ok ((s', pend'), (pend', pushed, ferr)).

(** Core 1 with its ADC: the DMA stores a sample, or the loop makes one iteration ([ch1]: see
    adc_update; [wready]: the inter-core FIFO has room). *)
Inductive c1_input : Set := Dma (v : Z) | Iter (ch1 wready : bool).
Record c1_state : Set := C1S { c1_adc : adc; c1_chain : core1; c1_pend : event }.
(** main.cpp:137-201; Reset() after Error() as in lines 150-154.  Output of an iteration: what is pushed to the
    inter-core FIFO and whether FifoErr is raised. *)
Definition c1_step (s : c1_state) (i : c1_input) : res (c1_state * option (option event * bool)) :=
  match i with
  | Dma v => Ok (C1S (ADC (ring_write (ad_ring (c1_adc s)) v) (ad_tc (c1_adc s)) (ad_off (c1_adc s))
                       (ad_error (c1_adc s)) (ad_gain (c1_adc s))) (c1_chain s) (c1_pend s), None)
  | Iter ch1 wready =>
      let* (a1, o) := adc_update ch1 (c1_adc s) in
      let '(a2, err) := match o with None => (a1, false) | Some _ => adc_read_error a1 end in
      let inp := match o with None => NoSample | Some v => if err then SampleErr else Sample v end in
      let* (k, pend, pushed, ferr) := core1_iter (c1_chain s) (c1_pend s) wready inp in
      Ok (C1S (if err then adc_reset a2 else a2) k pend, Some (pushed, ferr))
  end.
(** Static initialisation and lines 123-136; [mem]: content of the DMA buffer. *)
Definition c1_start (mem : list Z) (rxerr0 : bool) : res c1_state :=
  let* k := core1_new rxerr0 in Ok (C1S (adc_start mem firmware_gain) k ev_none).
