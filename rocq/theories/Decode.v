(** The decoder: /repo/src/special_types.rs, /repo/src/decoding_sci.rs and the parts of
    /repo/src/special_indicators.rs that read data.  64-bit targets; see Patch32.v for
    the 32-bit code path.  No proofs here. *)
From Verif Require Import Base Compact Types Indicators.
Local Open Scope string_scope.
Local Open Scope list_scope.

(** ** Pure conversions done by external crates *)

(** `String::from_utf8`: the validity automaton of core::str (Unicode table 3-7). *)
(** Called in decoding_sci.rs:137-145 and cards.rs:643-646. *)
Definition inr_ (lo hi b : N) : bool := ((lo <=? b) && (b <=? hi))%N.
Definition cont (b : N) : bool := inr_ 0x80 0xBF b.

(** Called in decoding_sci.rs:137-145 and cards.rs:643-646. *)
Fixpoint utf8_valid (l : bytes) : bool :=
  match l with
  | [] => true
  | b0 :: r0 =>
      if (b0 <=? 0x7F)%N then utf8_valid r0
      else
        match r0 with
        | b1 :: r1 =>
            if inr_ 0xC2 0xDF b0 && cont b1 then utf8_valid r1
            else
              match r1 with
              | b2 :: r2 =>
                  if ((b0 =? 0xE0)%N && inr_ 0xA0 0xBF b1 && cont b2)
                     || (inr_ 0xE1 0xEC b0 && cont b1 && cont b2)
                     || ((b0 =? 0xED)%N && inr_ 0x80 0x9F b1 && cont b2)
                     || (inr_ 0xEE 0xEF b0 && cont b1 && cont b2)
                  then utf8_valid r2
                  else
                    match r2 with
                    | b3 :: r3 =>
                        if ((b0 =? 0xF0)%N && inr_ 0x90 0xBF b1 && cont b2 && cont b3)
                           || (inr_ 0xF1 0xF3 b0 && cont b1 && cont b2 && cont b3)
                           || ((b0 =? 0xF4)%N && inr_ 0x80 0x8F b1 && cont b2 && cont b3)
                        then utf8_valid r3
                        else false
                    | [] => false
                    end
              | [] => false
              end
        | [] => false
        end
  end.

(** `char::from_u32`. *)
(** Called in special_types.rs:145-160. *)
Definition char_valid (c : N) : bool :=
  ((c <? 0xD800) || ((0xDFFF <? c) && (c <? 0x110000)))%N.

(** sp_arithmetic 26: inner integer and accuracy (maximum number of parts). *)
(** Instances in special_types.rs:80-97. *)
Definition per_width (k : per_kind) : uwidth :=
  match k with
  | KPerU16 => U16 | KPercent => U8 | KPermill => U32 | KPerbill => U32 | KPerquintill => U64
  end.

(** Instances in special_types.rs:80-97. *)
Definition per_max (k : per_kind) : N :=
  match k with
  | KPerU16 => 65535 | KPercent => 100 | KPermill => 1000000 | KPerbill => 1000000000
  | KPerquintill => 1000000000000000000
  end%N.

(** `stringify!($ty)` texts used in `TypeFailure` (special_types.rs:70-71). *)
Definition per_name (k : per_kind) : string :=
  match k with
  | KPerU16 => "PerU16" | KPercent => "Percent" | KPermill => "Permill" | KPerbill => "Perbill"
  | KPerquintill => "Perquintill"
  end.

(** Lengths of well-known arrays: primitive-types `len_bytes`, substrate-crypto-light
    `HASH_256_LEN` = 32, `PUBLIC_LEN` = 33 (ecdsa), 32, 32, `SIGNATURE_LEN` = 65 (ecdsa),
    64, 64 (special_types.rs:186-201). *)
Definition fixed_len (k : fixed_kind) : N :=
  match k with
  | KH160 => 20 | KH512 => 64 | KAccountId32 => 32
  | KPubEd25519 => 32 | KPubSr25519 => 32 | KPubEcdsa => 33
  | KSigEd25519 => 64 | KSigSr25519 => 64 | KSigEcdsa => 65
  end%N.

(** special_types.rs:186-201. *)
Definition H256_LEN : N := 32.

(** /repo/src/additional_types.rs:20-35 `Era::decode` on a byte string, followed by the
    `decode_all` check that nothing is left. *)
Definition era_of_encoded (encoded : N) : option era :=
  let period := N.shiftl 2 (encoded mod 16) in
  let quantize_factor := N.max (N.shiftr period 12) 1 in
  let phase := (N.shiftr encoded 4 * quantize_factor)%N in
  if ((4 <=? period) && (phase <? period))%N then Some (Mortal period phase) else None.

(** `Era::decode_all`, called in special_types.rs:461 and 469; additional_types.rs:19-36. *)
Definition era_decode_all (l : bytes) : option era :=
  match l with
  | [] => None
  | first :: rest =>
      if (first =? 0)%N then match rest with [] => Some Immortal | _ => None end
      else
        match rest with
        | [second] => era_of_encoded (first + N.shiftl second 8)
        | _ => None
        end
  end.

(** `period.trailing_zeros()` for a non-zero u64. *)
(** additional_types.rs:45. *)
Fixpoint trailing_zeros_pos (p : positive) : N :=
  match p with xO q => N.succ (trailing_zeros_pos q) | _ => 0%N end.
Definition trailing_zeros (n : N) : N :=
  match n with N0 => 64%N | Npos p => trailing_zeros_pos p end.

(** /repo/src/additional_types.rs:39-51 `Era::encode`. The u32 subtraction
    `trailing_zeros() - 1` underflows for an odd period: [None] stands for the panic.
    `(phase / q) << 4` as u16 and the u16 little-endian output are written out. *)
Definition era_encode (e : era) : option bytes :=
  match e with
  | Immortal => Some [0%N]
  | Mortal period phase =>
      let quantize_factor := N.max (N.shiftr period 12) 1 in
      let tz := trailing_zeros period in
      if (tz =? 0)%N then None
      else
        let low := N.min (N.max (tz - 1) 1) 15 in
        let encoded := N.lor low (N.shiftl (phase / quantize_factor) 4 mod 65536) in
        Some [encoded mod 256; encoded / 256]%N
  end.

(** ** Reading fixed-size items: special_types.rs *)

Section Source.
Context {E : Type}.
Variable b : buffer E.
Variable r : registry E.

(** Position moves by [n] (`shift_position`, special_types.rs:37-39). *)
Definition shift_pos (n : N) : M E parser_err unit :=
  do p <- get_pos; set_pos (p + N.to_nat n)%nat.

(** Slice of a known length at the current position; the conversions of the slice into a
    fixed-size array (`try_into().expect(...)`) panic on another length. *)
(** special_types.rs:69, 118, 144, 176. *)
Definition read_exact (n : N) : M E parser_err bytes :=
  do p <- get_pos;
  do l <- read_slice b p n;
  if (N.of_nat (List.length l) =? n)%N then ret l else panic.

(** special_types.rs:64-74 `cut_and_decode` by `decode_all` ([f] is the decoder of
    exactly that many bytes; its failure is `TypeFailure`). A slice of a wrong length
    cannot be decoded completely and is a `TypeFailure` in the code; [read_exact] makes
    it a panic, which is stronger for the no-panic theorems and is the same for
    well-behaved buffers. *)
Definition cut_and_decode {A} (n : N) (name : string) (f : bytes -> option A)
  : M E parser_err A :=
  do p <- get_pos;
  do l <- read_exact n;
  match f l with
  | Some a => shift_pos n ;; ret a
  | None => fail (TypeFailure p name)
  end.

(** `bool::decode_all` of parity-scale-codec, special_types.rs:70-71. *)
Definition decode_bool (l : bytes) : option bool :=
  match l with
  | [0%N] => Some false
  | [1%N] => Some true
  | _ => None
  end.

(** `stringify!($ty)`, special_types.rs:71-72. *)
Definition uint_name (w : uwidth) : string :=
  match w with U8 => "u8" | U16 => "u16" | U32 => "u32" | U64 => "u64" | U128 => "u128" end.
Definition int_name (w : uwidth) : string :=
  match w with U8 => "i8" | U16 => "i16" | U32 => "i32" | U64 => "i64" | U128 => "i128" end.

(** special_types.rs:57-97, the macro's instances. *)
Definition cut_uint (w : uwidth) : M E parser_err N :=
  cut_and_decode (N.of_nat (usize w)) (uint_name w) (fun l => Some (le_val l)).
Definition cut_int (w : uwidth) : M E parser_err Z :=
  cut_and_decode (N.of_nat (usize w)) (int_name w) (fun l => Some (le_sval l)).
Definition cut_bool : M E parser_err bool := cut_and_decode 1 "bool" decode_bool.
(** sp_arithmetic 26 `Decode` for per-things rejects values above the accuracy. *)
Definition cut_per (k : per_kind) : M E parser_err N :=
  cut_and_decode (N.of_nat (usize (per_width k))) (per_name k)
    (fun l => if (le_val l <=? per_max k)%N then Some (le_val l) else None).
(** special_types.rs:131-161 `char`. *)
Definition cut_char : M E parser_err N :=
  cut_and_decode 4 "char" (fun l => if char_valid (le_val l) then Some (le_val l) else None).
(** special_types.rs:106-129 `BigUint`, `BigInt`. *)
Definition cut_u256 : M E parser_err N := cut_and_decode 32 "" (fun l => Some (le_val l)).
Definition cut_i256 : M E parser_err Z := cut_and_decode 32 "" (fun l => Some (le_sval l)).
(** special_types.rs:164-201 well-known arrays. *)
Definition cut_fixed (k : fixed_kind) : M E parser_err bytes :=
  cut_and_decode (fixed_len k) "" (fun l => Some l).

(** `reject_compact()?` in a parser function. *)
(** propagated.rs:265-267. *)
Definition reject_compact_m (c : checker) : M E parser_err unit :=
  map_err (fun x => PRegistry (RInternal x)) (lift (reject_compact c)).

(** special_types.rs:284-302 `impl_block_compact`. *)
Definition block_compact (c : checker) {A} (m : M E parser_err A) : M E parser_err A :=
  match compact_at c with
  | Some id => fail (PRegistry (RInternal (UnexpectedCompactInsides id)))
  | None => m
  end.

(** special_types.rs:224-234 `parse_unsigned_integer`. *)
Definition parse_uint (w : uwidth) (c : checker) : M E parser_err pdata :=
  do value <- (match compact_at c with Some _ => get_compact w b | None => cut_uint w end);
  ret (DUInt w value (hint_uint (c_hint c))).

(** special_types.rs:261-279 `impl_allow_compact` for per-things; `Compact<PerThing>` is
    decoded through `CompactAs`, `decode_from` saturates at the accuracy. *)
Definition parse_per (k : per_kind) (c : checker) : M E parser_err pdata :=
  do value <- (match compact_at c with
               | Some _ => do x <- get_compact (per_width k) b; ret (N.min x (per_max k))
               | None => cut_per k
               end);
  ret (DPer k value).

(** special_types.rs:284-320. *)
Definition parse_fixed (k : fixed_kind) (c : checker) : M E parser_err pdata :=
  block_compact c (do x <- cut_fixed k; ret (DFixed k x)).

(** special_types.rs:424-440 `special_case_h256`. *)
Definition special_case_h256 (s : spec_hash) : M E parser_err pdata :=
  do x <- cut_and_decode H256_LEN "" (fun l => Some l); ret (DHash s x).

(** special_types.rs:451-481 `special_case_era`. *)
Definition special_case_era : M E parser_err pdata :=
  do p <- get_pos;
  do l1 <- read_slice b p 1;
  match era_decode_all l1 with
  | Some e => set_pos (p + 1)%nat ;; ret (DEra e)
  | None =>
      do l2 <- read_slice b p 2;
      match era_decode_all l2 with
      | Some e => set_pos (p + 2)%nat ;; ret (DEra e)
      | None => fail (TypeFailure p "Era")
      end
  end.

(** decoding_sci.rs:123-150 `decode_str`. *)
Definition decode_str (h : hint) : M E parser_err pdata :=
  do p <- get_pos;
  do found <- find_compact U32 b p;
  let '(str_length, text_start) := found in
  do text <- read_slice b text_start str_length;
  if utf8_valid text then
    set_pos (text_start + N.to_nat str_length)%nat ;;
    ret (DText text (hint_str h))
  else fail (TypeFailure p "str").

(** decoding_sci.rs:50-115 `decode_type_def_primitive`. *)
Definition decode_primitive (x : prim) (c : checker) : M E parser_err pdata :=
  match x with
  | PrBool => block_compact c (do v <- cut_bool; ret (DBool v))
  | PrChar => block_compact c (do v <- cut_char; ret (DChar v))
  | PrStr => reject_compact_m c ;; decode_str (c_hint c)
  | PrU w => parse_uint w c
  | PrU256 => block_compact c (do v <- cut_u256; ret (DU256 v))
  | PrI w => block_compact c (do v <- cut_int w; ret (DInt w v))
  | PrI256 => block_compact c (do v <- cut_i256; ret (DI256 v))
  end.

(** ** Collecting sequences: special_types.rs:323-419 *)

(** special_types.rs:343-350 `husk_set` for unsigned integers. *)
Fixpoint husk_set_uint (w : uwidth) (set : list pdata) : option (list N) :=
  match set with
  | [] => Some []
  | DUInt w' a SuNone :: rest =>
      match w, w' with
      | U8, U8 | U16, U16 | U32, U32 | U64, U64 | U128, U128 =>
          option_map (cons a) (husk_set_uint w rest)
      | _, _ => None
      end
  | _ => None
  end.

(** special_types.rs:363-401 `husk_set` for `Vec<u8>`; [inner] is the variable
    `inner_element_info`. *)
Fixpoint husk_set_vec (set : list pdata) (inner : option (list info))
  : option (list bytes * option (list info)) :=
  match set with
  | [] => Some ([], inner)
  | DSequence element_info (SeqU U8 a) :: rest =>
      let go inner' :=
        option_map (fun x => (a :: fst x, snd x)) (husk_set_vec rest inner') in
      match inner with
      | Some i => if infos_eqb i element_info then go inner else None
      | None => go (Some element_info)
      end
  | DSequenceRaw _ [] :: rest =>
      option_map (fun x => ([] :: fst x, snd x)) (husk_set_vec rest inner)
  | _ => None
  end.

(** special_types.rs:406-419 `wrap_sequence`. *)
Definition wrap_sequence (set : list pdata) : option sequence :=
  match set with
  | DUInt w _ _ :: _ => option_map (SeqU w) (husk_set_uint w set)
  | DSequence _ (SeqU U8 _) :: _ =>
      option_map (fun x => SeqVecU8 (fst x) (match snd x with Some i => i | None => [] end))
                 (husk_set_vec set None)
  | _ => None
  end.

(** ** Enums *)

(** decoding_sci.rs:691-714 `pick_variant`. *)
Definition find_variant (variants : list variant) (index : N) : option variant :=
  find (fun x => (v_index x =? index)%N) variants.

(** decoding_sci.rs:691-716. *)
Definition pick_variant (variants : list variant) (position : nat) : M E parser_err variant :=
  do enum_index <- read_byte b position;
  match find_variant variants enum_index with
  | Some v => ret v
  | None => fail (UnexpectedEnumVariant position)
  end.

(** ** Element types: decoding_sci.rs:1137-1210 `husk_type` *)

(** decoding_sci.rs:1137-1142 `HuskedType`. *)
Record husked := Husked { hu_info : list info; hu_checker : checker; hu_ty : ty; hu_id : N }.

(** `?` on a `RegistryInternalError`, decoding_sci.rs:1181, 1191, 1194. *)
Definition lift_int {A} (x : A + int_err) : M E reg_err A :=
  map_err RInternal (lift x).

(** The loop of `husk_type` (decoding_sci.rs:1169-1202), with fuel. *)
Fixpoint husk_loop (fuel : nat) (t : ty) (id : N) (c : checker) (acc : list info)
  : M E reg_err husked :=
  match fuel with
  | O => out_of_fuel
  | S fuel' =>
      let i := info_from_ty t in
      let acc := if info_is_empty i then acc else acc ++ [i] in
      match hinted_from_type t with
      | HtNone =>
          match t_def t with
          | TComposite [f] =>
              do c1 <- lift_int (check_id c (f_ty f));
              do t1 <- resolve_ty r (f_ty f);
              let c2 := match c_hint c1 with
                        | HNone => with_hint c1 (hint_from_field f)
                        | _ => c1
                        end in
              husk_loop fuel' t1 (f_ty f) c2 acc
          | TCompact inner =>
              lift_int (reject_compact c) ;;
              let c1 := with_compact_at c id in
              do c2 <- lift_int (check_id c1 inner);
              do t1 <- resolve_ty r inner;
              husk_loop fuel' t1 inner c2 acc
          | _ => ret (Husked acc c t id)
          end
      | _ => ret (Husked acc c t id)
      end
  end.

(** Bound for the loop of decoding_sci.rs:1169-1202 (proved sufficient, C09). *)
Definition husk_fuel : nat := S (S (reg_bound r)).

(** decoding_sci.rs:1148-1210 `husk_type`. *)
Definition husk_type (entry : N) (c : checker) : M E reg_err husked :=
  do c1 <- lift_int (check_id c entry);
  let c2 := Checker None HNone (cycle_check c1) in
  do t <- resolve_ty r entry;
  husk_loop husk_fuel t entry c2 [].

(** ** Special types: special_indicators.rs:260-330, 564-704 *)

(** special_indicators.rs:260-265 `SignatureIndicator`. *)
Inductive sig_indicator := SigNone | SigEcdsa | SigEd25519 | SigSr25519.

(** special_indicators.rs:270-330 `SignatureIndicator::from_field`; errors of `husk_type`
    and `resolve_ty` are swallowed. *)
Definition signature_from_field (f : field) : M E parser_err sig_indicator :=
  do h <- catch (husk_type (f_ty f) checker_new);
  match h with
  | inr _ => ret SigNone
  | inl hu =>
      match t_def (hu_ty hu) with
      | TArray len elem =>
          do et <- catch (resolve_ty r elem);
          match et with
          | inr _ => ret SigNone
          | inl t =>
              match t_def t with
              | TPrimitive (PrU U8) =>
                  match f_type_name f with
                  | Some type_name =>
                      if str_in type_name SIGNATURE_ECDSA_ID_SET then
                        ret (if (len =? fixed_len KSigEcdsa)%N then SigEcdsa else SigNone)
                      else if str_in type_name SIGNATURE_ED25519_ID_SET then
                        ret (if (len =? fixed_len KSigEd25519)%N then SigEd25519 else SigNone)
                      else if str_in type_name SIGNATURE_SR25519_ID_SET then
                        ret (if (len =? fixed_len KSigSr25519)%N then SigSr25519 else SigNone)
                      else ret SigNone
                  | None => ret SigNone
                  end
              | _ => ret SigNone
              end
          end
      | _ => ret SigNone
      end
  end.

(** special_indicators.rs:556-582 `SpecialtyTypeChecked`. *)
Inductive checked :=
| CNone
| CFixed (k : fixed_kind)
| CEra
| CH256
| CPalletSpecific (pallet_name : string) (pallet_info : info) (variants : list variant)
                  (item : pitem)
| CPer (k : per_kind).

(** special_indicators.rs:203. *)
Definition ENUM_INDEX_ENCODED_LEN : nat := 1.

(** special_indicators.rs:589-703 `SpecialtyTypeChecked::from_type`; errors of
    `pick_variant` and `resolve_ty` are swallowed. The position moves past the index byte
    if a pallet item or a signature is recognised. *)
Definition checked_from_type (t : ty) : M E parser_err checked :=
  match hinted_from_type t with
  | HtNone => ret CNone
  | HtFixed k => ret (CFixed k)
  | HtEra => ret CEra
  | HtH256 => ret CH256
  | HtMultiSignature =>
      match t_def t with
      | TVariant variants =>
          do p <- get_pos;
          do v <- catch (pick_variant variants p);
          match v with
          | inr _ => ret CNone
          | inl signature_variant =>
              match v_fields signature_variant with
              | [f] =>
                  do s <- signature_from_field f;
                  match s with
                  | SigNone => ret CNone
                  | SigEcdsa => set_pos (p + ENUM_INDEX_ENCODED_LEN)%nat ;; ret (CFixed KSigEcdsa)
                  | SigEd25519 => set_pos (p + ENUM_INDEX_ENCODED_LEN)%nat ;; ret (CFixed KSigEd25519)
                  | SigSr25519 => set_pos (p + ENUM_INDEX_ENCODED_LEN)%nat ;; ret (CFixed KSigSr25519)
                  end
              | _ => ret CNone
              end
          end
      | _ => ret CNone
      end
  | HtPalletSpecific item =>
      match t_def t with
      | TVariant variants =>
          do p <- get_pos;
          do v <- catch (pick_variant variants p);
          match v with
          | inr _ => ret CNone
          | inl pallet_variant =>
              match v_fields pallet_variant with
              | [f] =>
                  do vt <- catch (resolve_ty r (f_ty f));
                  match vt with
                  | inr _ => ret CNone
                  | inl variants_ty =>
                      match hinted_from_type variants_ty with
                      | HtPalletSpecific item_repeated =>
                          if pitem_eqb item item_repeated then
                            match t_def variants_ty with
                            | TVariant var =>
                                set_pos (p + ENUM_INDEX_ENCODED_LEN)%nat ;;
                                ret (CPalletSpecific (v_name pallet_variant)
                                       (info_from_ty variants_ty) var item)
                            | _ => ret CNone
                            end
                          else ret CNone
                      | _ => ret CNone
                      end
                  end
              | _ => ret CNone
              end
          end
      | _ => ret CNone
      end
  | HtPer k => ret (CPer k)
  | HtUncheckedExtrinsic => ret CNone
  end.

(** ** Bit sequences: decoding_sci.rs:751-1000 *)

(** decoding_sci.rs:759-787 `find_bit_order_ty`. *)
Definition find_bit_order_ty (order id : N) : M E reg_err bit_order :=
  do t <- resolve_ty r order;
  match t_def t with
  | TComposite _ =>
      match path_ident (t_path t) with
      | Some x =>
          if String.eqb x "Lsb0" then ret Lsb0
          else if String.eqb x "Msb0" then ret Msb0
          else fail (RInternal (NotBitOrderType id))
      | None => fail (RInternal (NotBitOrderType id))
      end
  | _ => fail (RInternal (NotBitOrderType id))
  end.

(** decoding_sci.rs:931-976 `BitVecPositions::new`: (bitvec_end, minimal_length), both
    relative to `bitvec_start`. [n] is the size of the store type in bytes. *)
Definition ceil_div (a m : N) : N := (if a mod m =? 0 then a / m else a / m + 1)%N.

(** decoding_sci.rs:927-977 `BitVecPositions::new`. *)
Definition bitvec_elements (n bit_length : N) : N := ceil_div (ceil_div bit_length 8) n.

(** decoding_sci.rs:927-977 `BitVecPositions::new`. *)
Definition bitvec_positions (n : N) (position : nat) : M E parser_err (nat * N * N) :=
  do found <- find_compact U32 b position;
  let '(bit_length, data_start) := found in
  let slice_length := (bitvec_elements n bit_length * n)%N in
  ret (data_start, bit_length, (N.of_nat (data_start - position) + slice_length)%N).

(** decoding_sci.rs:982-1000 `into_bitvec_decode`. *)
Definition into_bitvec_decode (n : N) : M E parser_err bytes :=
  do p <- get_pos;
  do x <- bitvec_positions n p;
  let '(_, _, minimal_length) := x in
  do l <- read_slice b p minimal_length;
  set_pos (p + N.to_nat minimal_length)%nat ;;
  ret l.

End Source.

(** Number of bytes taken by a compact, by its first byte (parity-scale-codec). *)
(** Called through `BitVec::decode_all`, decoding_sci.rs:798-900. *)
Definition compact_size (l : bytes) : nat :=
  match l with
  | [] => 0
  | x :: _ =>
      match (x mod 4)%N with
      | 0%N => 1 | 1%N => 2 | 2%N => 4 | _ => N.to_nat (x / 4 + 5)%N
      end
  end.

(** Bits of one store element in bit-vector order. *)
(** Called through `BitVec::decode_all`, decoding_sci.rs:798-900. *)
Definition bits_lsb (nbits : nat) (x : N) : list bool :=
  map (fun i => N.testbit x (N.of_nat i)) (seq 0 nbits).
Definition elem_bits (o : bit_order) (nbits : nat) (x : N) : list bool :=
  match o with Lsb0 => bits_lsb nbits x | Msb0 => rev (bits_lsb nbits x) end.

(** Splitting into [k] chunks of [n] bytes. *)
(** Called through `BitVec::decode_all`, decoding_sci.rs:798-900. *)
Fixpoint chunks (k n : nat) (l : bytes) : list bytes :=
  match k with
  | O => []
  | S k' => firstn n l :: chunks k' n (skipn n l)
  end.

(** `ARCH32BIT_BITSLICE_MAX_BITS` in parity-scale-codec src/bit_vec.rs. *)
(** Called through `BitVec::decode_all`, decoding_sci.rs:798-900. *)
Definition MAX_BITS : N := 0x1fffffff.

(** `BitVec<T, O>::decode_all` of parity-scale-codec (src/bit_vec.rs): compact length in
    bits, then as many whole elements as needed, truncated to the length. *)
(** Called through `BitVec::decode_all`, decoding_sci.rs:798-900. *)
Definition bitvec_decode_all (w : uwidth) (o : bit_order) (l : bytes) : option (list bool) :=
  match compact_decode U32 l with
  | None => None
  | Some bits =>
      if (MAX_BITS <? bits)%N then None
      else
        let rest := skipn (compact_size l) l in
        let n := usize w in
        let nbits := (8 * n)%nat in
        let k := N.to_nat (ceil_div bits (N.of_nat nbits)) in
        if Nat.eqb (List.length rest) (k * n) then
          Some (firstn (N.to_nat bits)
                  (flat_map (fun c => elem_bits o nbits (le_val c)) (chunks k n rest)))
        else None
  end.

(** decoding_sci.rs:798-900, the `ty` of the error. *)
Definition bitvec_name (w : uwidth) (o : bit_order) : string :=
  append "BitVec<" (append (uint_name w)
    (match o with Lsb0 => ", Lsb0>" | Msb0 => ", Msb0>" end)).

Section Source2.
Context {E : Type}.
Variable b : buffer E.
Variable r : registry E.

(** decoding_sci.rs:798-900 `decode_type_def_bit_sequence`, 64-bit target. *)
Definition decode_bit_sequence (store order id : N) : M E parser_err pdata :=
  do bitvec_start <- get_pos;
  do bitorder <- map_err PRegistry (find_bit_order_ty r order id);
  do st <- map_err PRegistry (resolve_ty r store);
  match t_def st with
  | TPrimitive (PrU U128) => fail (PRegistry (RInternal (NotBitStoreType id)))
  | TPrimitive (PrU w) =>
      do l <- into_bitvec_decode b (N.of_nat (usize w));
      match bitvec_decode_all w bitorder l with
      | Some bits => ret (DBitVec w bitorder bits)
      | None => fail (TypeFailure bitvec_start (bitvec_name w bitorder))
      end
  | _ => fail (PRegistry (RInternal (NotBitStoreType id)))
  end.

(** ** The general decoder *)

(** decoding_sci.rs:1214-1220 `Ty`. *)
Inductive ty_input := Resolved (t : ty) (id : N) | Symbol (id : N).

Section Body.
(** Recursive calls of `decode_with_type`. *)
Variable dec : ty_input -> propagated -> M E parser_err (ext pdata).

(** `?` on a `RegistryInternalError`, e.g. decoding_sci.rs:340, 356. *)
Definition lift_p {A} (x : A + int_err) : M E parser_err A :=
  map_err (fun y => PRegistry (RInternal y)) (lift x).

(** The loop of decoding_sci.rs:603-620. *)
Fixpoint fields_loop (fields : list field) (c : checker) : M E parser_err (list (fdata pdata)) :=
  match fields with
  | [] => ret []
  | f :: rest =>
      do p <- lift_p (for_field c f);
      do d <- dec (Symbol (f_ty f)) p;
      do tl <- fields_loop rest c;
      ret (FData (f_name f) (f_type_name f) (collect_docs (f_docs f)) d :: tl)
  end.

(** decoding_sci.rs:579-622 `decode_fields`. *)
Definition decode_fields (fields : list field) (c : checker) : M E parser_err (list (fdata pdata)) :=
  match fields with
  | _ :: _ :: _ => reject_compact_m c ;; fields_loop fields (forget_hint c)
  | _ => fields_loop fields c
  end.

(** decoding_sci.rs:719-749 `decode_variant`. *)
Definition decode_variant (variants : list variant) : M E parser_err (vdata pdata) :=
  do p <- get_pos;
  do v <- pick_variant b variants p;
  set_pos (p + ENUM_INDEX_ENCODED_LEN)%nat ;;
  do fs <- decode_fields (v_fields v) checker_new;
  ret (VData (v_name v) (collect_docs (v_docs v)) fs).

(** The loop of decoding_sci.rs:653-667. *)
Fixpoint elements_loop (n : nat) (hu : husked) : M E parser_err (list pdata) :=
  match n with
  | O => ret []
  | S n' =>
      do x <- dec (Resolved (hu_ty hu) (hu_id hu)) (with_checker (hu_checker hu));
      do tl <- elements_loop n' hu;
      ret (x_data x :: tl)
  end.

(** decoding_sci.rs:628-684 `decode_elements_set`. *)
Definition decode_elements_set (elem : N) (n : N) (p : propagated) : M E parser_err (ext pdata) :=
  reject_compact_m (checker_of p) ;;
  do hu <- map_err PRegistry (husk_type r elem (checker_of p));
  if (n =? 0)%N then ret (Ext (DSequenceRaw (hu_info hu) []) (info_of p))
  else
    do out <- elements_loop (N.to_nat n) hu;
    ret (Ext (match wrap_sequence out with
              | Some s => DSequence (hu_info hu) s
              | None => DSequenceRaw (hu_info hu) out
              end) (info_of p)).

(** The loop of decoding_sci.rs:343-359 (tuples). *)
Fixpoint tuple_loop (elems : list N) (c : checker) : M E parser_err (list (ext pdata)) :=
  match elems with
  | [] => ret []
  | id :: rest =>
      do t <- map_err PRegistry (resolve_ty r id);
      do p <- lift_p (for_ty c t id);
      do x <- dec (Resolved t id) p;
      do tl <- tuple_loop rest c;
      ret (x :: tl)
  end.

(** decoding_sci.rs:280-397: types without specialty. *)
Definition decode_plain (t : ty) (id : N) (p : propagated) : M E parser_err (ext pdata) :=
  match t_def t with
  | TComposite fields =>
      do fs <- decode_fields fields (checker_of p);
      ret (Ext (DComposite fs) (info_of p))
  | TVariant variants =>
      reject_compact_m (checker_of p) ;;
      match variants with
      | [] => ret (Ext DEmptyEnum (info_of p))
      | _ => do v <- decode_variant variants; ret (Ext (DVariant v) (info_of p))
      end
  | TSequence elem =>
      do n <- get_compact U32 b;
      decode_elements_set elem n (Propagated (drop_cycle_check (checker_of p)) (info_of p))
  | TArray len elem => decode_elements_set elem len p
  | TTuple elems =>
      match elems with
      | _ :: _ :: _ =>
          reject_compact_m (checker_of p) ;;
          do l <- tuple_loop elems (forget_hint (checker_of p));
          ret (Ext (DTuple l) (info_of p))
      | _ =>
          do l <- tuple_loop elems (checker_of p);
          ret (Ext (DTuple l) (info_of p))
      end
  | TPrimitive x =>
      do d <- decode_primitive b x (checker_of p); ret (Ext d (info_of p))
  | TCompact inner =>
      reject_compact_m (checker_of p) ;;
      do c <- lift_p (check_id (with_compact_at (checker_of p) id) inner);
      dec (Symbol inner) (Propagated c (info_of p))
  | TBitSequence store order =>
      reject_compact_m (checker_of p) ;;
      do d <- decode_bit_sequence store order id;
      ret (Ext d (info_of p))
  end.

(** decoding_sci.rs:398-573: special types. *)
Definition decode_checked (k : checked) (t : ty) (id : N) (p : propagated)
  : M E parser_err (ext pdata) :=
  match k with
  | CNone => decode_plain t id p
  | CFixed f => do d <- parse_fixed b f (checker_of p); ret (Ext d (info_of p))
  | CEra =>
      reject_compact_m (checker_of p) ;;
      do d <- special_case_era b; ret (Ext d (info_of p))
  | CH256 =>
      reject_compact_m (checker_of p) ;;
      do d <- special_case_h256 b (hint_hash (c_hint (checker_of p))); ret (Ext d (info_of p))
  | CPalletSpecific pallet_name pallet_info variants item =>
      reject_compact_m (checker_of p) ;;
      do v <- decode_variant variants;
      let d := PSData pallet_info (vd_docs v) pallet_name (vd_name v) (vd_fields v) in
      ret (Ext (match item with ItCall => DCall d | ItEvent => DEvent d end) (info_of p))
  | CPer f => do d <- parse_per b f (checker_of p); ret (Ext d (info_of p))
  end.

(** decoding_sci.rs:260-573 `decode_with_type`, one level. *)
Definition decode_body (inp : ty_input) (p : propagated) : M E parser_err (ext pdata) :=
  do ti <- match inp with
           | Resolved t id => ret (t, id)
           | Symbol id => do t <- map_err PRegistry (resolve_ty r id); ret (t, id)
           end;
  let '(t, id) := ti in
  let p1 := add_info p (info_from_ty t) in
  do k <- checked_from_type b r t;
  decode_checked k t id p1.

End Body.

(** `decode_with_type` with a bound on the recursion depth. *)
(** decoding_sci.rs:260-574 `decode_with_type`. *)
Fixpoint decode (fuel : nat) (inp : ty_input) (p : propagated) : M E parser_err (ext pdata) :=
  match fuel with
  | O => out_of_fuel
  | S fuel' => decode_body (decode fuel') inp p
  end.

(** The recursion depth is at most this much (proved sufficient, C09). *)
(** decoding_sci.rs:260-574 `decode_with_type`. *)
Definition decode_fuel : nat := S (S (total_len b) * (reg_bound r + 3)).

(** decoding_sci.rs:260-574 `decode_with_type`. *)
Definition decode_with_type (inp : ty_input) (p : propagated) : M E parser_err (ext pdata) :=
  decode decode_fuel inp p.

(** ** /repo/src/lib.rs:776-825 *)

(** lib.rs:776-796 `decode_as_type_at_position`. *)
Definition decode_as_type_at_position (id : N) : M E parser_err (ext pdata) :=
  decode_with_type (Symbol id) propagated_new.

(** lib.rs:801-825 `decode_all_as_type`; starts at position 0, whatever the position of
    the surrounding computation. *)
Definition decode_all_body (id : N) : M E parser_err (ext pdata) :=
  set_pos 0 ;;
  do out <- decode_as_type_at_position id;
  do position <- get_pos;
  if Nat.eqb position (total_len b) then ret out
  else fail (SomeDataNotUsedBlob position).

(** lib.rs:801-825 `decode_all_as_type`. *)
Definition decode_all_as_type (id : N) (e : E) : outcome parser_err (ext pdata) * E :=
  let '(o, _, e') := decode_all_body id 0 e in (o, e').

End Source2.
