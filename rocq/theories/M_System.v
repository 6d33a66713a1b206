(** M_System.v -- the two cores joined by the inter-core FIFO and the flag FifoErr
    (pico/src/main.cpp:119, 137-145, 216-217, 248-254, 268-269).
    Simplifications: an iteration of either core is one step, except that core 0's test of FifoErr
    (lines 230 and 248, taken as one access) may precede the rest of its iteration -- with the clearing of
    the flag (line 253) and the access to the FIFO (lines 268-269) -- by any number of steps of core 1;
    multicore_fifo_drain() finds the FIFO empty (core 0 and core 1 start together). *)
From Verif Require Import Base M_Message M_Tx M_HostUart M_Led M_Adc M_Core1 D_Core1 M_Core0 D_Core0.

(** Depth of the RP2040's inter-core FIFO (SIO), in words. *)
Definition FIFO_DEPTH : nat := 8.
(** FIFO content (oldest first), FifoErr, and the value of FifoErr core 0 has tested already in its
    current iteration. *)
Record link : Set := LK { k_queue : list event; k_ferr : bool; k_tested : option bool }.
(** main.cpp:129 *)
Definition link_new : link := LK [] false None.
(** multicore_fifo_wready() *)
Definition link_room (k : link) : bool := (length (k_queue k) <? FIFO_DEPTH)%nat.
(** main.cpp:138-145: core 1 passes on the news [e] of its previous iteration. *)
Definition link_news (k : link) (e : event) : link :=
  if ev_nonzero e then
    if link_room k then LK (k_queue k ++ [e]) (k_ferr k) (k_tested k) else LK (k_queue k) true (k_tested k)
  else k.
(** main.cpp:248: core 0 tests FifoErr. *)
Definition link_test (k : link) : link := LK (k_queue k) (k_ferr k) (Some (k_ferr k)).
(** main.cpp:253 and 268-269: core 0 clears FifoErr if it found it set, and takes a word if there is one. *)
Definition link_take (k : link) : bool * option event * link :=
  let seen := match k_tested k with Some b => b | None => k_ferr k end in
  (seen, hd_error (k_queue k), LK (tl (k_queue k)) (if seen then false else k_ferr k) None).

(** Core 0 and the link; core 1 is any source of news. *)
Inductive duo_in : Set := News (e : event) | Test | Loop (i : inp0).
(** The iteration as it happens: FifoErr and the word come from the link. *)
Definition linked (i : inp0) (ferr : bool) (e : option event) : inp0 :=
  IN0 (in_now i) (in_chars i) (in_budget i) ferr e (in_hw i) (in_ticks i) (in_junk i).
Definition duo_step (s : link * core0) (x : duo_in) : res ((link * core0) * option (inp0 * list (Z * act))) :=
  let '(k, c) := s in
  match x with
  | News e => Ok ((link_news k e, c), None)
  | Test => Ok ((link_test k, c), None)
  | Loop i =>
      let '(f, e, k') := link_take k in
      let* (c', log) := core0_step c (linked i f e) in
      Ok ((k', c'), Some (linked i f e, log))
  end.

(** The complete firmware: DMA transfers, iterations of core 1, and core 0 in its two pieces. *)
Inductive sys_in : Set := Y_dma (v : Z) | Y_core1 (ch1 : bool) | Y_test | Y_core0 (i : inp0).
Record sys : Set := SYS { y_c1 : c1_state; y_link : link; y_c0 : core0 }.
Definition sys_step (s : sys) (x : sys_in) : res (sys * option (inp0 * list (Z * act))) :=
  match x with
  | Y_dma v => let* (c1, _) := c1_step (y_c1 s) (Dma v) in Ok (SYS c1 (y_link s) (y_c0 s), None)
  | Y_core1 ch1 =>
      let* (c1, o) := c1_step (y_c1 s) (Iter ch1 (link_room (y_link s))) in
      let k := match o with
               | Some (pushed, ferr) =>
                   LK (k_queue (y_link s) ++ match pushed with Some e => [e] | None => [] end)
                      (if ferr then true else k_ferr (y_link s)) (k_tested (y_link s))
               | None => y_link s
               end in
      Ok (SYS c1 k (y_c0 s), None)
  | Y_test => Ok (SYS (y_c1 s) (link_test (y_link s)) (y_c0 s), None)
  | Y_core0 i =>
      let '(f, e, k') := link_take (y_link s) in
      let* (c', log) := core0_step (y_c0 s) (linked i f e) in
      Ok (SYS (y_c1 s) k' c', Some (linked i f e, log))
  end.
(** Start (main.cpp:345-358). *)
Definition duo_start (b : boot) : res (link * core0) := let* c := core0_boot b in Ok (link_new, c).
Definition sys_start (b : boot) (mem : list Z) (rxerr0 : bool) : res sys :=
  let* c1 := c1_start mem rxerr0 in
  let* c0 := core0_boot b in Ok (SYS c1 link_new c0).
Definition duo_run (b : boot) (l : list duo_in) : res ((link * core0) * list (option (inp0 * list (Z * act)))) :=
  let* s := duo_start b in mrun duo_step s l.
Definition sys_run (b : boot) (mem : list Z) (rxerr0 : bool) (l : list sys_in) : res (sys * list (option (inp0 * list (Z * act)))) :=
  let* s := sys_start b mem rxerr0 in mrun sys_step s l.
