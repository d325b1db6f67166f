(** Model of libcperciva/util/humansize.c. *)
From Verif Require Import Base.

(** printf's %d for a non-negative int / PRIu64 etc.: decimal digits. *)
Fixpoint dec_fuel (fuel : nat) (n : N) : bytes :=
  match fuel with
  | O => []
  | S f => if n <? 10 then [48 + n] else dec_fuel f (n / 10) ++ [48 + n mod 10]
  end.
(* what %d and %u print for n >= 0 (ISO C) *)
Definition print_dec (n : N) : bytes := dec_fuel (S (N.to_nat (N.log2 n))) n.

(* humansize.c:31-32: for (size /= 100, shiftcnt = 1; size >= 10000; shiftcnt++) size /= 1000; *)
Fixpoint hs_loop (fuel : nat) (size : N) (shiftcnt : nat) : res (N * nat) :=
  if 10000 <=? size then
    match fuel with O => UB | S f => hs_loop f (size / 1000) (S shiftcnt) end
  else Ok (size, shiftcnt).
(* humansize.c:40 the string " kMGTPE" (with its terminating NUL) *)
Definition hs_prefixes : bytes := [32; 107; 77; 71; 84; 80; 69; 0].
(* humansize.c:15-58 humansize; [mem]: asprintf succeeds.  None is NULL. *)
Definition humansize (mem : bool) (size : N) : res (option bytes) :=
  s <- (if size <? 1000 then Ok (print_dec size ++ [32; 66])
        else
          ' (size, shiftcnt) <- hs_loop 64 (size / 100) 1 ;;
          pr <- rd hs_prefixes shiftcnt 1 ;;
          let prefix := sel pr 0 in
          Ok (if size <? 100
              then print_dec (size / 10) ++ [46] ++ print_dec (size mod 10) ++ [32; prefix; 66]
              else print_dec (size / 10) ++ [32; prefix; 66])) ;;
  Ok (if mem then Some s else None).

(* humansize.c:64-165 humansize_parse.  One iteration of the do-while for
   character c; state, size and multiplier are the loop variables.  The states
   fall through as in the switch. *)
Definition UINT64_MAX : N := 0xffffffffffffffff.
Definition hp_s4 (c size mult : N) : Z * N * N :=       (* cases 4, 5 *)
  if c =? 66 then (5%Z, size, mult) else ((-1)%Z, size, mult).
Definition hp_mult (c mult : N) : N :=                   (* humansize.c:113-132 *)
  let m6 m := w64 (m * 1000) in
  match c with
  | 69 => m6 (m6 (m6 (m6 (m6 (m6 mult)))))
  | 80 => m6 (m6 (m6 (m6 (m6 mult))))
  | 84 => m6 (m6 (m6 (m6 mult)))
  | 71 => m6 (m6 (m6 mult))
  | 77 => m6 (m6 mult)
  | 107 => m6 mult
  | _ => mult
  end.
Definition hp_s3 (c size mult : N) : Z * N * N :=       (* case 3 *)
  let mult := hp_mult c mult in
  if negb (mult =? 1) then (4%Z, size, mult) else hp_s4 c size mult.
Definition hp_s2 (c size mult : N) : Z * N * N :=       (* case 2 *)
  if c =? 32 then (3%Z, size, mult) else hp_s3 c size mult.
Definition hp_s1 (c size mult : N) : Z * N * N :=       (* case 1 *)
  if (48 <=? c) && (c <=? 57) then
    let '(st, size) := if UINT64_MAX / 10 <? size then ((-1)%Z, size) else (1%Z, w64 (size * 10)) in
    let '(st, size) := if UINT64_MAX - (c - 48) <? size then ((-1)%Z, size) else (st, w64 (size + (c - 48))) in
    (st, size, mult)
  else hp_s2 c size mult.
(* humansize.c:75-163: the switch of humansize_parse; falling through is calling the next state *)
Definition hp_step (state : Z) (c size mult : N) : Z * N * N :=
  match state with
  | 0%Z => if (c <? 48) || (57 <? c) then ((-1)%Z, 0, mult) else hp_s1 c 0 mult
  | 1%Z => hp_s1 c size mult
  | 2%Z => hp_s2 c size mult
  | 3%Z => hp_s3 c size mult
  | 4%Z => hp_s4 c size mult
  | 5%Z => ((-1)%Z, size, mult)
  | _ => (state, size, mult)
  end.
(* the do { ... s++; } while ((state != -1) && ( *s != '\0')) loop; the string is
   s followed by a NUL *)
Fixpoint hp_loop (s : bytes) (state : Z) (size mult : N) : Z * N * N :=
  match s with
  | [] => (state, size, mult)
  | c :: t =>
      let '(state, size, mult) := hp_step state c size mult in
      if (state =? -1)%Z then (state, size, mult) else hp_loop t state size mult
  end.
(** Some v: returned 0 with *size = v; None: returned -1.  [size0] is the
    previous contents of *size. *)
Definition humansize_parse (size0 : N) (s : bytes) : option N :=
  let '(state, size, mult) :=
    match s with
    | [] => hp_step 0 0 size0 1          (* the first character is the NUL *)
    | _ => hp_loop s 0 size0 1
    end in
  let '(state, size) := if UINT64_MAX / mult <? size then ((-1)%Z, size) else (state, w64 (size * mult)) in
  if (state =? -1)%Z then None else Some size.
