(** Model of how libpulp writes its log: the formatting front end of
    lib/msg_queue.c and the error functions of lib/error.c.  The circular buffer
    behind it is MsgQModel. *)
From Coq Require Import String.
From Verif Require Import Base StrModel MsgQModel.

(** A variadic argument as printf fetches it: a number in a general purpose
    register, a string, a null pointer, or a [va_list] (what lib/error.c:70 and 95
    pass on instead of the arguments themselves). *)
Inductive parg := A_num (z : Z) | A_str (s : list Z) | A_null | A_valist.

(** One digit, for bases up to 16. *)
Definition digit_char (d : Z) : Z := if d <? 10 then 48 + d else 87 + d.

(** The digits of a number below [b ^ fuel], as printf writes them. *)
Fixpoint num_go (fuel : nat) (b n : Z) (acc : list Z) : list Z :=
  match fuel with
  | O => acc
  | S f => if n <? b then digit_char n :: acc
           else num_go f b (n / b) (digit_char (n mod b) :: acc)
  end.
Definition print_num (b n : Z) : list Z := num_go 20 b n [].

(** %d. *)
Definition print_int (z : Z) : list Z :=
  let v := s32 z in if v <? 0 then 45 :: print_num 10 (- v) else print_num 10 v.

(** glibc's printf for the conversions that occur in libpulp.so: %% %s %d %x %lu
    %lx %p.  [None]: undefined behaviour (an argument missing or of the wrong
    kind) or a conversion outside this list. *)
Fixpoint vformat (fmt : list Z) (args : list parg) : option (list Z) :=
  match fmt with
  | [] => Some []
  | c :: f =>
      if negb (c =? 37) then option_map (cons c) (vformat f args)
      else match f with
           | [] => None
           | k :: f1 =>
               if k =? 37 then option_map (cons 37) (vformat f1 args)
               else match args with
                    | [] => None
                    | a :: args' =>
                        if k =? 115 then
                          match a with
                          | A_str s => option_map (app s) (vformat f1 args')
                          | A_null => option_map (app (zs "(null)")) (vformat f1 args')
                          | _ => None
                          end
                        else match a with
                             | A_num z =>
                                 if k =? 100 then option_map (app (print_int z)) (vformat f1 args')
                                 else if k =? 120 then
                                   option_map (app (print_num 16 (u32 z))) (vformat f1 args')
                                 else if k =? 112 then
                                   option_map (app (if u64 z =? 0 then zs "(nil)"
                                                    else zs "0x" ++ print_num 16 (u64 z)))
                                              (vformat f1 args')
                                 else if k =? 108 then
                                   match f1 with
                                   | [] => None
                                   | k2 :: f2 =>
                                       if k2 =? 117 then
                                         option_map (app (print_num 10 (u64 z))) (vformat f2 args')
                                       else if k2 =? 120 then
                                         option_map (app (print_num 16 (u64 z))) (vformat f2 args')
                                       else None
                                   end
                                 else None
                             | A_null =>
                                 if k =? 112 then option_map (app (zs "(nil)")) (vformat f1 args')
                                 else None
                             | _ => None
                             end
                    end
           end
  end.

(** libpulp's logging state: the queue (lib/msg_queue.c:33), the static buffer
    [msg] messages are put together in (lib/msg_queue.c:31), which no lock guards,
    and __ulp_error_state (lib/error.c:40). *)
Record lstate := mk_ls { ls_q : msgq; ls_msg : Z -> Z; ls_err : Z }.

(** The state before the first message. *)
Definition ls_init : lstate := mk_ls msgq_init (fun _ => 0) 0.

(** Outcomes: finished; the process ends with this status after this text on
    stderr; undefined behaviour; endless loop. *)
Inductive lres := L_ok (st : lstate) | L_exit (status : Z) (text : list Z) | L_UB | L_fuel.

Definition lbind (r : lres) (k : lstate -> lres) : lres :=
  match r with L_ok st => k st | r => r end.

(** lib/msg_queue.c:38-94, msgq_strpush with the message and its size as two
    arguments, which they are: [msgq_strpush] of MsgQModel is the case where the
    size is that of the string.  A size of 0 copies nothing. *)
Definition strpush_sized (f : nat) (mx : Z) (q : msgq) (msg : Z -> Z) (size : Z) : mres :=
  if (msg 0 =? 0) || (size >? mx) then M_ok q
  else
    let wrap := mq_top q + size >=? mx in
    let buf := if wrap then mem_write (mq_buf q) (mq_top q) (repeat 0 (Z.to_nat (mx - mq_top q)))
               else mq_buf q in
    let dist := if wrap then mq_dist q + (mx - mq_top q) else mq_dist q in
    let top := if wrap then 0 else mq_top q in
    match evict f f mx buf (mq_bottom q) dist size with
    | E_UB => M_UB
    | E_fuel => M_fuel
    | E_ok bottom dist' =>
        if negb ((0 <=? top) && (top + size <=? mx)) then M_UB
        else M_ok (mk_msgq (mem_write buf top (mem_read msg 0 (Z.to_nat size)))
                           ((top + size) mod mx) bottom (dist' + size))
    end.

Definition push_buffer (f : nat) (mx : Z) (st : lstate) (msg : Z -> Z) (size : Z) : lres :=
  match strpush_sized f mx (ls_q st) msg size with
  | M_ok q => L_ok (mk_ls q (ls_msg st) (ls_err st))
  | M_UB => L_UB
  | M_fuel => L_fuel
  end.

(** vsnprintf(msg, MSGQ_BUFFER_MAX, format, arglist) + 1 (lib/msg_queue.c:110 and
    128): the new contents of the buffer and the size.  At most mx - 1 characters
    are stored; the size is that of the whole text; a text of more than INT_MAX
    characters makes vsnprintf return -1. *)
Definition format_msg (mx : Z) (st : lstate) (fmt : list Z) (args : list parg) : option (lstate * Z) :=
  match vformat fmt args with
  | None => None
  | Some text =>
      let m := mem_write (ls_msg st) 0 (firstn (Z.to_nat (mx - 1)) text ++ [0]) in
      Some (mk_ls (ls_q st) m (ls_err st), if zlen text >? 2 ^ 31 - 1 then 0 else zlen text + 1)
  end.

(** lib/msg_queue.c:101-114, msgq_push, and 121-131, msgq_vpush (the same but for
    where the arguments come from). *)
Definition msgq_push (f : nat) (mx : Z) (st : lstate) (fmt : list Z) (args : list parg) : lres :=
  match format_msg mx st fmt args with
  | None => L_UB
  | Some (st1, size) => push_buffer f mx st1 (ls_msg st1) size
  end.

(** lib/msg_queue.c:141-158, ulp_warn, and 161-178, ulp_debug (identical).  [ts]:
    the text strftime makes of localtime_r's answer ([None]: that was NULL, which
    strftime does not accept); an empty text stands for strftime returning 0.  The
    local buffer holds the text and its terminator. *)
Definition ulp_warn (f : nat) (mx : Z) (ts : option (list Z)) (st : lstate) (fmt : list Z)
    (args : list parg) : lres :=
  match ts with
  | None => L_UB
  | Some t =>
      lbind (if 0 <? zlen t
             then push_buffer f mx st (mem_write (fun _ => 0) 0 (t ++ [0])) (zlen t + 1)
             else L_ok st)
        (fun st1 => msgq_push f mx st1 fmt args)
  end.

(** include/ulp_common.h:275-276, the macros WARN and DEBUG. *)
Definition WARN (f : nat) (mx : Z) (ts : option (list Z)) (st : lstate) (fmt : list Z)
    (args : list parg) : lres :=
  ulp_warn f mx ts st (zs "ulp: " ++ fmt ++ [10]) args.

(** lib/error.c:55-58, set_libpulp_error_state. *)
Definition set_state (s : Z) (st : lstate) : lstate := mk_ls (ls_q st) (ls_msg st) s.

(** lib/error.c:49-52, libpulp_is_in_error_state. *)
Definition in_error_state (st : lstate) : bool := negb (ls_err st =? 0).

(** include/error_common.h:38, EUNKNOWN. *)
Definition L_EUNKNOWN : Z := 256.

(** lib/error.c:61-73, set_libpulp_error_state_with_reason_func.  The reason is
    formatted with the va_list as its only argument. *)
Definition set_state_with_reason (f : nat) (mx : Z) (file func : list Z) (line state : Z)
    (fmt : list Z) (args : list parg) (st : lstate) : lres :=
  lbind (msgq_push f mx (set_state state st)
           (zs "In file = %s, function = %s, line = %d, error state %d: ")
           [A_str file; A_str func; A_num line; A_num state])
    (fun st1 => msgq_push f mx st1 fmt [A_valist]).

(** lib/error.c:76-85, libpulp_assert_func. *)
Definition libpulp_assert (f : nat) (mx : Z) (file func : list Z) (line expr : Z) (st : lstate) : lres :=
  if negb (expr =? 0) then L_ok st
  else lbind (msgq_push f mx st
                (zs "In file = %s, function = %s, line = %d: assertion failure: %lu" ++ [10])
                [A_str file; A_str func; A_num line; A_num expr])
         (fun st1 => L_ok (set_state L_EUNKNOWN st1)).

(** lib/error.c:88-99, libpulp_errx_func.  The same va_list. *)
Definition libpulp_errx (f : nat) (mx : Z) (file func : list Z) (line eval : Z)
    (fmt : list Z) (args : list parg) (st : lstate) : lres :=
  lbind (msgq_push f mx st (zs "In file = %s, function = %s, line = %d: errx : %d ;; ")
           [A_str file; A_str func; A_num line; A_num eval])
    (fun st1 => lbind (msgq_push f mx st1 fmt [A_valist])
       (fun st2 => L_ok (set_state L_EUNKNOWN st2))).

(** lib/error.c:102-108, libpulp_exit_func. *)
Definition libpulp_exit (f : nat) (mx : Z) (file func : list Z) (line val : Z) (st : lstate) : lres :=
  lbind (msgq_push f mx st (zs "In file = %s, function = %s, line = %d: exit: %d" ++ [10])
           [A_str file; A_str func; A_num line; A_num val])
    (fun st1 => L_ok (set_state L_EUNKNOWN st1)).

(** lib/error.c:111-119, libpulp_crash, and 28-32, the exit. *)
Definition libpulp_crash (fmt : list Z) (args : list parg) : lres :=
  match vformat fmt args with Some t => L_exit 1 t | None => L_UB end.

(** lib/error.c:122-134, libpulp_crash_assert_func. *)
Definition libpulp_crash_assert (file func : list Z) (line expr : Z) (st : lstate) : lres :=
  if negb (expr =? 0) then L_ok st
  else libpulp_crash
         (zs "LIBPULP CATASTROPHIC FAILURE: In file = %s, function = %s, line = %d: assertion failure: %lu"
            ++ [10])
         [A_str file; A_str func; A_num line; A_num expr].

(** The calls other code makes to write to the log. *)
Inductive lcall :=
| K_push (fmt : list Z) (args : list parg)
| K_warn (ts : option (list Z)) (fmt : list Z) (args : list parg)
| K_reason (file func : list Z) (line state : Z) (fmt : list Z) (args : list parg)
| K_assert (file func : list Z) (line expr : Z)
| K_errx (file func : list Z) (line eval : Z) (fmt : list Z) (args : list parg)
| K_exit (file func : list Z) (line val : Z).

Definition do_call (f : nat) (mx : Z) (st : lstate) (c : lcall) : lres :=
  match c with
  | K_push fmt args => msgq_push f mx st fmt args
  | K_warn ts fmt args => WARN f mx ts st fmt args
  | K_reason file func line state fmt args => set_state_with_reason f mx file func line state fmt args st
  | K_assert file func line e => libpulp_assert f mx file func line e st
  | K_errx file func line eval fmt args => libpulp_errx f mx file func line eval fmt args st
  | K_exit file func line val => libpulp_exit f mx file func line val st
  end.

(** Calls one after the other. *)
Fixpoint do_calls (f : nat) (mx : Z) (st : lstate) (l : list lcall) : lres :=
  match l with
  | [] => L_ok st
  | c :: l' => lbind (do_call f mx st c) (fun st1 => do_calls f mx st1 l')
  end.

(** Two threads in msgq_push, between the two lines of its body: a thread that has
    formatted knows the size and has not pushed yet.  [sched]: which thread makes
    the next step. *)
Record tlog := mk_tl { tl_st : lstate; tl_size : bool -> option Z }.

Fixpoint two_threads (f : nat) (mx : Z) (text : bool -> list Z * list parg) (t : tlog)
    (sched : list bool) : lres :=
  match sched with
  | [] => L_ok (tl_st t)
  | w :: rest =>
      match tl_size t w with
      | None =>
          match format_msg mx (tl_st t) (fst (text w)) (snd (text w)) with
          | None => L_UB
          | Some (st, size) =>
              two_threads f mx text
                (mk_tl st (fun v => if Bool.eqb v w then Some size else tl_size t v)) rest
          end
      | Some size =>
          lbind (push_buffer f mx (tl_st t) (ls_msg (tl_st t)) size)
            (fun st => two_threads f mx text
                         (mk_tl st (fun v => if Bool.eqb v w then None else tl_size t v)) rest)
      end
  end.
