(** M_Message.v -- model of pico/src/message.{hpp,cpp}.
    Characters are [Z] codes 0..255; a C string is a list of non-zero codes. *)
From Coq Require Import Ascii String.
From Verif Require Import Base.
Open Scope Z_scope.

(** Character codes of a Coq string literal (notation helper, not code). *)
Fixpoint str (s : string) : list Z :=
  match s with
  | EmptyString => []
  | String c t => Z.of_nat (nat_of_ascii c) :: str t
  end.
Definition chr (s : string) : Z := hd 0 (str s).

(** message.hpp:4 *)
Definition MAX_PACKET_SIZE : nat := 32.

(** message.hpp:34-38.  [m_data] always has 32 cells; cells at or beyond Length are
    whatever was there before (never cleared by the code). *)
Record message : Set := MSG {
  m_status : Z; m_time : Z; m_data : list Z; m_length : nat }.

(** message.hpp:9-22 *)
Definition STATUS_OK : Z := 0.
Definition STATUS_ERR_BUS_COLLISION : Z := 1.
Definition STATUS_ERR_OVERFLOW : Z := 2.
Definition STATUS_ERR_PARITY : Z := 3.
Definition STATUS_ERR_NO_FRAMING : Z := 4.
Definition STATUS_INTERNAL_ERROR : Z := 5.

(** message.cpp:8-11 -- Message(): Data is left uninitialised ([junk], 32 cells). *)
Definition msg_new (junk : list Z) : message := MSG 0 0 junk 0.

(** message.cpp:13-17 -- Message(time, status, data, length).
    memcpy of Length bytes from [data]; reading past [data] is UB. *)
Fixpoint copy_loop (src : list Z) (i k : nat) (dst : list Z) : res (list Z) :=
  match k with
  | O => Ok dst
  | S k' =>
      let* v := aget src i in
      let* d := aset dst i v in
      copy_loop src (S i) k' d
  end.
Definition msg_make (junk : list Z) (time status : Z) (data : list Z) (len : nat) : res message :=
  let l := if (len <? MAX_PACKET_SIZE)%nat then len else MAX_PACKET_SIZE in
  let* d := copy_loop data 0 l junk in
  Ok (MSG status time d l).

(** message.cpp:112-117 -- Append *)
Definition msg_append (m : message) (b : Z) : res message :=
  if (m_length m <? MAX_PACKET_SIZE)%nat then
    let* d := aset (m_data m) (m_length m) b in
    Ok (MSG (m_status m) (m_time m) d (S (m_length m)))
  else Ok m.

(** message.cpp:119-123 -- Clear (Time and Data keep their values) *)
Definition msg_clear (m : message) : message := MSG 0 (m_time m) (m_data m) 0.

(** message.cpp:125-128 -- Overflow *)
Definition msg_overflow (m : message) : bool := (m_length m =? MAX_PACKET_SIZE)%nat.

(** ** Number formatting used by snprintf *)

(** Digit character of a value 0..15 (lower case, as printf's %x). *)
Definition digit_char (d : Z) : Z := if d <? 10 then 48 + d else 87 + d.
(** Digits of [n >= 0] in [base], most significant first; fuel = number of digits allowed. *)
Fixpoint digits (base : Z) (fuel : nat) (n : Z) (acc : list Z) : list Z :=
  match fuel with
  | O => acc
  | S f =>
      let acc' := digit_char (n mod base) :: acc in
      if n <? base then acc' else digits base f (n / base) acc'
  end.
(** printf "%llu" of a uint64_t: 20 digits suffice. *)
Definition fmt_llu (n : Z) : list Z := digits 10 20 n [].
(** printf "%02x" of a uint32_t: at least two digits, zero padded; 8 digits suffice. *)
Definition fmt_02x (n : Z) : list Z :=
  let d := digits 16 8 n [] in
  if (List.length d <? 2)%nat then 48 :: d else d.

(** snprintf(&buf[pos], size, text): stores at most size-1 characters plus NUL. *)
Fixpoint write_at (buf : list Z) (pos : nat) (text : list Z) : res (list Z) :=
  match text with
  | [] => Ok buf
  | c :: t => let* b := aset buf pos c in write_at b (S pos) t
  end.
Definition snprintf_at (buf : list Z) (pos size : nat) (text : list Z) : res (list Z) :=
  match size with
  | O => Ok buf
  | S room => write_at buf pos (firstn room text ++ [0])
  end.

(** message.cpp:28-29: the data loop, [k] iterations left.
    [128 - (off + i*2)]: size_t subtraction; it would wrap if negative, in which case
    the write below is out of bounds anyway (modelled as UB). *)
Fixpoint cstr_loop (m : message) (off i k : nat) (line : list Z) : res (list Z) :=
  match k with
  | O => Ok line
  | S k' =>
      let* v := aget (m_data m) i in
      if (128 <? off + i * 2)%nat then UB OutOfBounds else
      let* l := snprintf_at line (off + i * 2) (128 - (off + i * 2)) (fmt_02x v) in
      cstr_loop m off (S i) k' l
  end.

(** message.cpp:21-32 -- c_str.  [line] is the static 128-byte buffer (content left by
    earlier calls); the result is its new content. *)
Definition msg_c_str (m : message) (line : list Z) : res (list Z) :=
  let text := fmt_llu (m_time m) ++ [58] ++ fmt_02x (m_status m) ++ [58] in
  let* l := snprintf_at line 0 128 text in
  cstr_loop m (List.length text) 0 (m_length m) l.

(** The C string stored at offset [i] of a buffer: characters up to the first NUL. *)
Fixpoint until_nul (l : list Z) : list Z :=
  match l with
  | [] => []
  | c :: t => if c =? 0 then [] else c :: until_nul t
  end.
Definition cstring_at (buf : list Z) (i : nat) : list Z := until_nul (skipn i buf).

(** ** libc number parsing (newlib; results outside the type saturate) *)

Definition is_space (c : Z) : bool := (c =? 32) || ((9 <=? c) && (c <=? 13)).
Fixpoint skip_space (l : list Z) : list Z :=
  match l with
  | c :: t => if is_space c then skip_space t else l
  | [] => []
  end.
(** Value of an alphanumeric digit, or None. *)
Definition digit_val (c : Z) : option Z :=
  if (48 <=? c) && (c <=? 57) then Some (c - 48)
  else if (97 <=? c) && (c <=? 122) then Some (c - 87)
  else if (65 <=? c) && (c <=? 90) then Some (c - 55)
  else None.
(** Longest prefix of digits below [base], accumulated without bound. *)
Fixpoint scan_digits (base : Z) (l : list Z) (acc : Z) : Z :=
  match l with
  | c :: t =>
      match digit_val c with
      | Some d => if d <? base then scan_digits base t (acc * base + d) else acc
      | None => acc
      end
  | [] => acc
  end.
(** Optional sign. *)
Definition take_sign (l : list Z) : bool * list Z :=
  match l with
  | c :: t => if c =? 45 then (true, t) else if c =? 43 then (false, t) else (false, l)
  | [] => (false, [])
  end.
(** Optional 0x / 0X prefix for base 16. *)
Definition take_0x (l : list Z) : list Z :=
  match l with
  | a :: b :: t => if (a =? 48) && ((b =? 120) || (b =? 88)) then t else l
  | _ => l
  end.
Definition saturate (max v : Z) : Z := Z.max (- max - 1) (Z.min max v).
(** atoll(s) *)
Definition atoll (s : list Z) : Z :=
  let '(neg, l) := take_sign (skip_space s) in
  let v := scan_digits 10 l 0 in
  saturate 9223372036854775807 (if neg then - v else v).
(** strtol(s, NULL, 16), LONG_MAX = [long_max] *)
Definition strtol16 (lmax : Z) (s : list Z) : Z :=
  let '(neg, l) := take_sign (skip_space s) in
  let v := scan_digits 16 (take_0x l) 0 in
  saturate lmax (if neg then - v else v).

(** ** The parsing constructor *)

(** message.cpp:48-71: scan state: time_ptr set?, status_ptr, data_ptr (offsets into the
    line), field, and the line rewritten so far (every ':' becomes NUL). *)
Record scan : Set := SCAN {
  sc_time : bool; sc_status : option nat; sc_data : nat; sc_field : nat; sc_buf : list Z }.
Definition scan_step (i : nat) (c : Z) (s : scan) : scan :=
  if c =? 58 then
    let buf := sc_buf s ++ [0] in
    match sc_field s with
    | O => SCAN true (Some (S i)) (sc_data s) 1 buf
    | S O => SCAN (sc_time s) (sc_status s) (S i) 2 buf
    | f => SCAN (sc_time s) (sc_status s) (sc_data s) (S f) buf
    end
  else SCAN (sc_time s) (sc_status s) (sc_data s) (sc_field s) (sc_buf s ++ [c]).
Fixpoint scan_loop (i : nat) (l : list Z) (s : scan) : scan :=
  match l with
  | [] => s
  | c :: t => scan_loop (S i) t (scan_step i c s)
  end.
Definition scan_line (line : list Z) : scan := scan_loop 0 line (SCAN false None 0 0 []).

(** message.cpp:90-96: the value of [char decoded] after the three tests.
    [decoded = -1] stored in a plain char is -1 if char is signed, 255 if not. *)
Definition decode_nibble (p : platform) (c : Z) : Z :=
  if (97 <=? c) && (c <=? 102) then c - 97 + 10
  else if (65 <=? c) && (c <=? 70) then c - 65 + 10
  else if (48 <=? c) && (c <=? 57) then c - 48
  else if char_signed p then -1 else 255.

(** message.cpp:80-109: the data loop; [field] is the half-byte flag.
    [decoded != -1] compares after promotion to int. *)
Fixpoint data_loop (p : platform) (l : list Z) (field : bool) (m : message) : res message :=
  match l with
  | [] => Ok m
  | c :: t =>
      if c =? 32 then data_loop p t field m
      else if (c =? 35) || (c =? 59) then Ok m
      else
        let decoded := decode_nibble p c in
        if negb (decoded =? -1) then
          if negb field then
            let* d := aset (m_data m) (m_length m) (u8 (Z.shiftl decoded 4)) in
            data_loop p t true (MSG (m_status m) (m_time m) d (m_length m))
          else
            let* old := aget (m_data m) (m_length m) in
            let* d := aset (m_data m) (m_length m) (u8 (Z.lor old decoded)) in
            data_loop p t false (MSG (m_status m) (m_time m) d (S (m_length m)))
        else data_loop p t field m
  end.

(** message.cpp:37-110 -- Message(char *line). *)
Definition msg_parse (p : platform) (junk line : list Z) : res message :=
  let sc := scan_line line in
  let buf := sc_buf sc ++ [0] in
  let time_str := cstring_at buf 0 in
  let time :=
    if sc_time sc && (0 <? List.length time_str)%nat then u64 (atoll time_str) else 0 in
  let status :=
    match sc_status sc with
    | Some i =>
        let s := cstring_at buf i in
        if (0 <? List.length s)%nat then u32 (strtol16 (long_max p) s) else 0
    | None => 0
    end in
  data_loop p (cstring_at buf (sc_data sc)) false (MSG status time junk 0).
