(** Displaying balances: /repo/src/printing_balance.rs. No proofs here.

    u8 and i8 arithmetic is checked: [None] stands for a panic (integer overflow in a
    debug build, `unreachable!()`, string slicing out of range). *)
From Verif Require Import Base Sign.
Local Open Scope string_scope.
Local Open Scope N_scope.

(** Panics of printing_balance.rs:138-364. *)
Definition obind {A B} (x : option A) (f : A -> option B) : option B :=
  match x with Some a => f a | None => None end.
Notation "'olet' x <- m ; k" := (obind m (fun x => k))
  (at level 200, x pattern, m at level 100, k at level 200, right associativity).

(** Checked u8 arithmetic. *)
(** Operations of printing_balance.rs:152-339. *)
Definition u8_add (a b : N) : option N := if a + b <? 256 then Some (a + b) else None.
Definition u8_sub (a b : N) : option N := if b <=? a then Some (a - b) else None.
Definition u8_mul (a b : N) : option N := if a * b <? 256 then Some (a * b) else None.
(** Checked i8 addition; [as_i8] is the wrapping cast `as i8` of a u8. *)
Definition as_i8 (a : N) : Z := if a <? 128 then Z.of_N a else (Z.of_N a - 256)%Z.
Definition i8_add (a b : Z) : option Z :=
  if ((-128 <=? a + b) && (a + b <=? 127))%Z then Some (a + b)%Z else None.
(** Checked i8 negation. *)
Definition i8_neg (a : Z) : option Z := if (a =? -128)%Z then None else Some (- a)%Z.

(** `&s[..n]`, `&s[n..]` on ASCII text; out of range panics. *)
(** Operations of printing_balance.rs:152-339. *)
Definition str_to (s : string) (n : nat) : option string :=
  if Nat.leb n (String.length s) then Some (substring 0 n s) else None.
Definition str_from (s : string) (n : nat) : option string :=
  if Nat.leb n (String.length s) then Some (substring n (String.length s - n) s) else None.

(** `"0".repeat(n)`. *)
(** printing_balance.rs:141. *)
Fixpoint zeroes (n : nat) : string :=
  match n with O => "" | S n' => String "0" (zeroes n') end.

(** printing_balance.rs:85-111 `CutNumber`. *)
Record cut_number := CutNumber { before_point : string; after_point : option string; mag : Z }.

(** printing_balance.rs:115-121 `Currency`. *)
Record currency := Currency { number : string; units : string }.

(** printing_balance.rs:124, 127. *)
Definition MAG_HIGHEST_POS : N := 6.
Definition MAG_LOWEST_NEG : N := 4.

(** printing_balance.rs:138-145 `assist`. *)
Definition assist (balance : string) (zeroes_after_point_before_value : N) : cut_number :=
  CutNumber "0" (Some (zeroes (N.to_nat zeroes_after_point_before_value) ++ balance))
            (as_i8 MAG_HIGHEST_POS).

(** printing_balance.rs:155-208: single digit. *)
Definition cut_one_digit (balance : string) (decimals : N) : option cut_number :=
  olet lim <- u8_mul MAG_HIGHEST_POS 3;
  if String.eqb balance "0" then
    if decimals <=? lim then
      match decimals mod 3 with
      | 0 => Some (CutNumber balance None (as_i8 (decimals / 3)))
      | 1 => Some (CutNumber balance (Some "0") (as_i8 (decimals / 3)))
      | 2 => Some (CutNumber balance (Some "00") (as_i8 (decimals / 3)))
      | _ => None
      end
    else
      olet a <- u8_sub decimals lim;
      olet z <- u8_sub a 1;
      Some (assist balance z)
  else
    if decimals <=? lim then
      match decimals mod 3 with
      | 0 => Some (CutNumber balance None (as_i8 (decimals / 3)))
      | 1 => olet m <- i8_add (as_i8 (decimals / 3)) 1; Some (CutNumber (balance ++ "00") None m)
      | 2 => olet m <- i8_add (as_i8 (decimals / 3)) 1; Some (CutNumber (balance ++ "0") None m)
      | _ => None
      end
    else
      olet a <- u8_sub decimals lim;
      olet z <- u8_sub a 1;
      Some (assist balance z).

(** `assist(balance, decimals - order - MAG_HIGHEST_POS * 3 - 1)`. *)
(** printing_balance.rs:229, 266 and 303. *)
Definition assist_order (balance : string) (decimals order : N) : option cut_number :=
  olet lim <- u8_mul MAG_HIGHEST_POS 3;
  olet a <- u8_sub decimals order;
  olet a2 <- u8_sub a lim;
  olet z <- u8_sub a2 1;
  Some (assist balance z).

(** printing_balance.rs:209-241: two digits. *)
Definition cut_two_digits (balance : string) (order decimals : N) : option cut_number :=
  if order <=? decimals then
    olet lim <- u8_mul MAG_HIGHEST_POS 3;
    olet d <- u8_sub decimals order;
    if d <=? lim then
      olet d2 <- u8_add decimals 2;
      match d2 mod 3 with
      | 0 => olet a <- str_to balance 1; olet b <- str_from balance 1;
             Some (CutNumber a (Some b) (as_i8 (decimals / 3)))
      | 1 => olet m <- i8_add (as_i8 (decimals / 3)) 1; Some (CutNumber (balance ++ "0") None m)
      | 2 => Some (CutNumber balance None (as_i8 (decimals / 3)))
      | _ => None
      end
    else assist_order balance decimals order
  else Some (CutNumber balance None 0%Z).

(** printing_balance.rs:242-282: three digits. *)
Definition cut_three_digits (balance : string) (order decimals : N) : option cut_number :=
  if order <=? decimals then
    olet lim <- u8_mul MAG_HIGHEST_POS 3;
    olet d <- u8_sub decimals order;
    if d <=? lim then
      olet d1 <- u8_add decimals 1;
      match d1 mod 3 with
      | 0 => olet a <- str_to balance 1; olet b <- str_from balance 1;
             Some (CutNumber a (Some b) (as_i8 (decimals / 3)))
      | 1 => Some (CutNumber balance None (as_i8 (decimals / 3)))
      | 2 => olet a <- str_to balance 2; olet b <- str_from balance 2;
             Some (CutNumber a (Some b) (as_i8 (decimals / 3)))
      | _ => None
      end
    else assist_order balance decimals order
  else if decimals =? 0 then Some (CutNumber balance None 0%Z)
  else olet a <- str_to balance 2; olet b <- str_from balance 2;
       Some (CutNumber a (Some b) 0%Z).

(** Splitting [length] characters off the end: `balance[..balance.len() - length]`. *)
(** printing_balance.rs:305-338. *)
Definition split_end (balance : string) (length : N) (m : Z) : option cut_number :=
  if length <=? N.of_nat (String.length balance) then
    let k := (String.length balance - N.to_nat length)%nat in
    olet a <- str_to balance k;
    olet b <- str_from balance k;
    Some (CutNumber a (Some b) m)
  else None.

(** printing_balance.rs:283-339: four digits and more. *)
Definition cut_many_digits (balance : string) (order decimals : N) : option cut_number :=
  if order <=? decimals then
    olet lim <- u8_mul MAG_HIGHEST_POS 3;
    olet d <- u8_sub decimals order;
    if d <=? lim then
      olet lm <-
        match d mod 3 with
        | 0 => Some (order, as_i8 (d / 3))
        | 1 => olet l <- u8_sub order 2; olet m <- i8_add (as_i8 (d / 3)) 1; Some (l, m)
        | 2 => olet l <- u8_sub order 1; olet m <- i8_add (as_i8 (d / 3)) 1; Some (l, m)
        | _ => None
        end;
      split_end balance (fst lm) (snd lm)
    else assist_order balance decimals order
  else
    olet d <- u8_sub order decimals;
    olet lim <- u8_mul MAG_LOWEST_NEG 3;
    olet lm <-
      (if d <=? lim then
         olet l <- u8_sub order (d mod 3);
         olet m <- i8_neg (Z.quot (as_i8 d) 3);
         Some (l, m)
       else
         olet l <- u8_add lim decimals;
         olet m <- i8_neg (as_i8 MAG_LOWEST_NEG);
         Some (l, m));
    split_end balance (fst lm) (snd lm).

(** printing_balance.rs:341-354: unit prefix. *)
Definition unit_prefix (m : Z) : option string :=
  match m with
  | (-4)%Z => Some "T"
  | (-3)%Z => Some "G"
  | (-2)%Z => Some "M"
  | (-1)%Z => Some "k"
  | 0%Z => Some ""
  | 1%Z => Some "m"
  | 2%Z => Some "u"
  | 3%Z => Some "n"
  | 4%Z => Some "p"
  | 5%Z => Some "f"
  | 6%Z => Some "a"
  | _ => None
  end.

(** printing_balance.rs:148-365 `convert_balance_string`. `balance.len() as u8` wraps. *)
Definition convert_balance_string (balance : string) (decimals : N) (unit : string)
  : option currency :=
  olet order <- u8_sub (N.of_nat (String.length balance) mod 256) 1;
  olet t <- match order with
            | 0 => cut_one_digit balance decimals
            | 1 => cut_two_digits balance order decimals
            | 2 => cut_three_digits balance order decimals
            | _ => cut_many_digits balance order decimals
            end;
  olet p <- unit_prefix (mag t);
  let n := match after_point t with
           | Some x => before_point t ++ "." ++ x
           | None => before_point t
           end in
  Some (Currency n (p ++ unit)).

(** printing_balance.rs:66 `AsBalance::convert_balance_pretty` (u8 to u128). *)
Definition convert_balance_pretty (value decimals : N) (unit : string) : option currency :=
  convert_balance_string (dec_string value) decimals unit.
