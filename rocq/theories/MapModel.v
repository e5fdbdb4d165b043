(** How libpulp finds out the protection of a page (lib/insn_queue.c, lib/ulp.c). *)
From Verif Require Import Base TextModel.

(** LINE_MAX of <limits.h>. *)
Definition LINE_MAX : Z := 2048.

(** lib/insn_queue.c:187-220 (lib/ulp.c:381-412), read_line, when [n] more characters fit:
    the characters of the line (without newline) and what is left of the
    file; [None]: the result -1. [err]: reading fails where the file ends here,
    instead of reporting the end. Interrupted reads are repeated by the code and
    not modelled. *)
Fixpoint read_line (err : bool) (n : nat) (file : list Z) : option (list Z * list Z) :=
  match n with
  | O => None
  | S n' =>
      match file with
      | [] => if err then None else Some ([], [])
      | c :: t => if c =? 10 then Some ([], t)
                  else match read_line err n' t with
                       | None => None
                       | Some (l, rest) => Some (c :: l, rest)
                       end
      end
  end.

(** strtoul(s, &end, 16) of a string that starts with a hexadecimal digit (as the numbers in
    /proc/self/maps do): the value and what is left. *)
Fixpoint hex_scan (s : list Z) (v : Z) : Z * list Z :=
  match s with
  | c :: t => match unhex c with Some d => hex_scan t (16 * v + d) | None => (v, s) end
  | [] => (v, [])
  end.
Definition strtoul16_end (s : list Z) : Z * list Z :=
  let (v, e) := hex_scan s 0 in (Z.min v (2 ^ 64 - 1), e).

(** PROT_READ, PROT_WRITE, PROT_EXEC of <sys/mman.h>. *)
Definition prot_bits (e : list Z) : option Z :=
  match e with
  | _ :: a :: b :: c :: _ =>
      Some (Z.lor (if a =? 114 then 1 else 0) (Z.lor (if b =? 119 then 2 else 0) (if c =? 120 then 4 else 0)))
  | _ => None
  end.

(** lib/insn_queue.c:227-275 (lib/ulp.c:855-903), memory_protection_get: the loop; every round takes a line.
    [None]: characters behind the line are looked at (left-overs of an earlier one,
    or never written); the buffer is taken to end with the newline. *)
Fixpoint prot_loop (fuel : nat) (err : bool) (addr : Z) (file : list Z) : option Z :=
  match fuel with
  | O => None
  | S fuel' =>
      match read_line err (Z.to_nat LINE_MAX) file with
      | None | Some ([], _) => Some (-1)
      | Some (l, rest) =>
          let (addr1, e1) := strtoul16_end (l ++ [10]) in
          match e1 with
          | [] => None
          | _ :: s2 =>
              let (addr2, e2) := strtoul16_end s2 in
              if (addr <? addr1) || (addr2 <=? addr) then prot_loop fuel' err addr rest
              else prot_bits e2
          end
      end
  end.

(** The whole function on the content of /proc/self/maps ([None]: it cannot be opened). Every
    round but the last consumes a character, so the fuel suffices. *)
Definition memory_protection_get (err : bool) (maps : option (list Z)) (addr : Z) : option Z :=
  match maps with
  | None => Some (-1)
  | Some file => prot_loop (S (length file)) err addr file
  end.

(** lib/insn_queue.c:304-317, the first loop of insn_interpret_write: the protections of the [n]
    pages from [page]; [Some None]: one of them has none and the write is given up.
    [None]: as above. The file is read anew for every page, and does not change
    meanwhile. *)
Fixpoint page_prots (err : bool) (maps : option (list Z)) (ps page : Z) (n : nat) : option (option (list Z)) :=
  match n with
  | O => Some (Some [])
  | S n' =>
      match memory_protection_get err maps page with
      | None => None
      | Some v =>
          if v =? -1 then Some None
          else match page_prots err maps ps (page + ps) n' with
               | None => None
               | Some None => Some None
               | Some (Some l) => Some (Some (v :: l))
               end
      end
  end.
