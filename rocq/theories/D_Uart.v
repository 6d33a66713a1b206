(** D_Uart.v -- driver: one call of UART::Update as an observable step. *)
From Verif Require Import Base S_LineModes M_ShiftReg M_Uart.

(** Input: the symbol probability and the values of *out and *err before the call.
    Output: [Some (out, err)] if Update returned true. *)
Definition ua_call (u : uart) (i : Z * Z * bool) : res (uart * option (Z * bool)) :=
  let '(x, o, e) := i in
  let* (u', ret, o', e') := ua_update u x o e in
  Ok (u', if ret then Some (o', e') else None).
Definition sym_of (i : Z * Z * bool) : Z := fst (fst i).

(** The parity mode of the specification that a constructor argument stands for. *)
Definition mode_of (p : uart_parity) : mode :=
  match p with PARITY_NONE => None | PARITY_EVEN => Some false | PARITY_ODD => Some true end.
