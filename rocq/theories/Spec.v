(** Specification: SCALE values, their encoding, and the documented parsed form.

    Written independently of the decoder: [enc] says which bytes a value of a type
    encodes to, [view] what a user should see for it; neither mentions positions,
    buffers, checkers or the decoder.  Only data types (types of the registry, parsed
    data, labels) are shared with the model. *)
From Coq Require Import Relations.
From Verif Require Import Base Compact Types.
Local Open Scope string_scope.
Local Open Scope list_scope.

(** ** Numbers and compacts *)

Fixpoint le_bytes (k : nat) (n : N) : bytes :=
  match k with
  | O => []
  | S k' => (n mod 256)%N :: le_bytes k' (n / 256)%N
  end.

(** Least number of bytes holding [n] (at least 4): the "big integer" mode. *)
Definition big_len (n : N) : nat := Nat.max 4 (N.to_nat ((N.size n + 7) / 8)%N).

(** Canonical SCALE compact encoding. *)
Definition compact_enc (n : N) : bytes :=
  (if n <? 64 then [4 * n]
   else if n <? 2 ^ 14 then le_bytes 2 (4 * n + 1)
   else if n <? 2 ^ 30 then le_bytes 4 (4 * n + 2)
   else 4 * (N.of_nat (big_len n) - 4) + 3 :: le_bytes (big_len n) n)%N.

(** Range of the unsigned type of a width. *)
Definition fits (w : uwidth) (n : N) : bool := (n <? 2 ^ (8 * N.of_nat (usize w)))%N.

(** ** Text *)

Definition scalar (c : N) : bool := ((c <? 0xD800) || ((0xE000 <=? c) && (c <=? 0x10FFFF)))%N.

Definition utf8 (c : N) : bytes :=
  (if c <? 0x80 then [c]
   else if c <? 0x800 then [0xC0 + c / 2 ^ 6; 0x80 + c mod 2 ^ 6]
   else if c <? 0x10000 then [0xE0 + c / 2 ^ 12; 0x80 + (c / 2 ^ 6) mod 2 ^ 6; 0x80 + c mod 2 ^ 6]
   else [0xF0 + c / 2 ^ 18; 0x80 + (c / 2 ^ 12) mod 2 ^ 6; 0x80 + (c / 2 ^ 6) mod 2 ^ 6;
         0x80 + c mod 2 ^ 6])%N.

Definition utf8s (l : list N) : bytes := flat_map utf8 l.

(** ** Eras *)

(** A mortal era has a power-of-two period from 4 to 65536 and a phase below it that is a
    multiple of the quantisation step max(period/4096, 1). *)
Definition quantum (period : N) : N := N.max (period / 4096) 1.

Definition era_valid (e : era) : bool :=
  match e with
  | Immortal => true
  | Mortal period phase =>
      ((4 <=? period) && (period <=? 65536) && (period =? 2 ^ N.log2 period)
       && (phase <? period) && (phase mod quantum period =? 0))%N
  end.

(** Two bytes: low 4 bits log2(period) - 1, the rest the quantised phase. *)
Definition era_enc (e : era) : bytes :=
  match e with
  | Immortal => [0%N]
  | Mortal period phase =>
      le_bytes 2 (N.log2 period - 1 + 16 * (phase / quantum period))%N
  end.

(** ** Types that are not decoded by their definition *)

Inductive special :=
| SpPlain                     (* decoded by definition *)
| SpRaw (k : fixed_kind)      (* fixed number of bytes *)
| SpHash                      (* 32 bytes *)
| SpEra
| SpPer (k : per_kind)
| SpMultiSig                  (* by definition, but bare signatures are recognised *)
| SpItem (i : pitem).         (* by definition, but pallet calls/events are recognised *)

(** Recognised by the last path segment, and for some by the whole path. *)
Definition special_table : list (string * special) :=
  [("AccountId32", SpRaw KAccountId32); ("AccountId20", SpRaw KH160); ("H160", SpRaw KH160);
   ("H512", SpRaw KH512); ("H256", SpHash); ("Era", SpEra);
   ("PerU16", SpPer KPerU16); ("Percent", SpPer KPercent); ("Permill", SpPer KPermill);
   ("Perbill", SpPer KPerbill); ("Perquintill", SpPer KPerquintill);
   ("MultiSignature", SpMultiSig);
   ("Call", SpItem ItCall); ("RuntimeCall", SpItem ItCall);
   ("Event", SpItem ItEvent); ("RuntimeEvent", SpItem ItEvent)].

Definition special_paths : list (list string * special) :=
  [(["sp_core"; "ed25519"; "Public"], SpRaw KPubEd25519);
   (["sp_core"; "sr25519"; "Public"], SpRaw KPubSr25519);
   (["sp_core"; "ecdsa"; "Public"], SpRaw KPubEcdsa);
   (["sp_core"; "ed25519"; "Signature"], SpRaw KSigEd25519);
   (["sp_core"; "sr25519"; "Signature"], SpRaw KSigSr25519);
   (["sp_core"; "ecdsa"; "Signature"], SpRaw KSigEcdsa)].

(** The type of whole extrinsics is never looked into when it is the element type of a
    vector (it is still decoded by its definition). *)
Definition opaque_path : list string :=
  ["sp_runtime"; "generic"; "unchecked_extrinsic"; "UncheckedExtrinsic"].

Definition classify (t : ty) : special :=
  match find (fun x => strs_eqb (fst x) (t_path t)) special_paths with
  | Some (_, s) => s
  | None =>
      match find (fun x => String.eqb (fst x) (List.last (t_path t) "")) special_table with
      | Some (_, s) => s
      | None => SpPlain
      end
  end.

(** Length of raw types. *)
Definition raw_len (k : fixed_kind) : nat :=
  match k with
  | KH160 => 20 | KH512 => 64 | KAccountId32 => 32
  | KPubEd25519 => 32 | KPubSr25519 => 32 | KPubEcdsa => 33
  | KSigEd25519 => 64 | KSigSr25519 => 64 | KSigEcdsa => 65
  end.

Definition part_width (k : per_kind) : uwidth :=
  match k with
  | KPercent => U8 | KPerU16 => U16 | KPermill => U32 | KPerbill => U32 | KPerquintill => U64
  end.

(** Number of parts of a whole. *)
Definition whole (k : per_kind) : N :=
  match k with
  | KPercent => 100 | KPerU16 => 65535 | KPermill => 10 ^ 6 | KPerbill => 10 ^ 9
  | KPerquintill => 10 ^ 18
  end%N.

(** Definition of a type, if it is decoded by definition. *)
Definition def_of (t : ty) : option typedef :=
  match classify t with
  | SpPlain | SpMultiSig | SpItem _ => Some (t_def t)
  | _ => None
  end.

(** Docs and path shown for a type; nothing if both are empty. *)
Definition own_info (t : ty) : list info :=
  match t_docs t, t_path t with
  | ([] | [EmptyString]), [] => []
  | d, p => [Info (join (String (ascii_of_nat 10) "") d) p]
  end.

(** ** Values *)

Inductive value :=
| VNum (n : N)                          (* unsigned integers, char, per-things *)
| VInt (z : Z)
| VBool (b : bool)
| VStr (l : list N)                     (* Unicode scalar values *)
| VStruct (l : list value)
| VTuple (l : list value)
| VEnum (i : N) (l : list value)        (* index and fields *)
| VNever                                (* enum without variants *)
| VSeq (l : list value)
| VArr (l : list value)
| VCompact (v : value)
| VBits (n : N) (elems : list N)        (* number of bits, store elements *)
| VRaw (l : bytes)                      (* special types of fixed length *)
| VEra (e : era)
| VSig (i : N) (l : bytes)              (* MultiSignature: index and bare signature *)
| VItem (i j : N) (l : list value).     (* call or event: pallet index, item index, fields *)

Section Spec.
Variable types : list ty.

(** *** Vector elements: single-field structs and compacts are transparent *)

Definition transparent (t : ty) : option (N * bool) :=
  match classify t with
  | SpPlain =>
      if strs_eqb (t_path t) opaque_path then None
      else
        match t_def t with
        | TComposite [f] => Some (f_ty f, false)
        | TCompact inner => Some (inner, true)
        | _ => None
        end
  | _ => None
  end.

(** Following transparent types from [id]: collected type information, and the final type.
    Fails on an unresolvable id, a compact in a compact, or a repeated id (also one of
    [seen]). *)
Fixpoint peel (fuel : nat) (seen : list N) (cpt : bool) (id : N) : option (list info * N) :=
  match fuel with
  | O => None
  | S fuel' =>
      if existsb (N.eqb id) seen then None
      else
        match lookup types id with
        | None => None
        | Some t =>
            match transparent t with
            | None => Some (own_info t, id)
            | Some (inner, is_compact) =>
                if cpt && is_compact then None
                else
                  match peel fuel' (seen ++ [id]) (cpt || is_compact) inner with
                  | Some (l, final) => Some (own_info t ++ l, final)
                  | None => None
                  end
            end
        end
  end.

Definition peel_from (seen : list N) (id : N) : option (list info * N) :=
  peel (S (List.length types)) seen false id.

(** *** Recognised enum variants *)

Definition sig_names : list (string * fixed_kind) :=
  [("ecdsa::Signature", KSigEcdsa); ("ed25519::Signature", KSigEd25519);
   ("sr25519::Signature", KSigSr25519)].

(** A field that is a bare signature: recognised type name, and (transparently) an array
    of bytes of the right length. *)
Definition bare_signature (f : field) : option fixed_kind :=
  match f_type_name f with
  | None => None
  | Some name =>
      match find (fun x => String.eqb (fst x) name) sig_names with
      | None => None
      | Some (_, k) =>
          match peel_from [] (f_ty f) with
          | None => None
          | Some (_, final) =>
              match lookup types final with
              | Some (Ty _ _ (TArray len elem) _) =>
                  match lookup types elem with
                  | Some (Ty _ _ (TPrimitive (PrU U8)) _) =>
                      if (len =? N.of_nat (raw_len k))%N then Some k else None
                  | _ => None
                  end
              | _ => None
              end
          end
      end
  end.

Definition item_eqb (a b : special) : bool :=
  match a, b with
  | SpItem ItCall, SpItem ItCall | SpItem ItEvent, SpItem ItEvent => true
  | _, _ => false
  end.

(** The enum of the calls (events) of a pallet: the only field of the pallet's variant. *)
Definition pallet_items (t : ty) (v : variant) : option (ty * list variant) :=
  match v_fields v with
  | [f] =>
      match lookup types (f_ty f) with
      | Some inner =>
          match t_def inner with
          | TVariant l => if item_eqb (classify t) (classify inner) then Some (inner, l) else None
          | _ => None
          end
      | None => None
      end
  | _ => None
  end.

Definition variant_sig (t : ty) (v : variant) : option fixed_kind :=
  match classify t, v_fields v with
  | SpMultiSig, [f] => bare_signature f
  | _, _ => None
  end.

(** The first variant with the index. *)
Definition by_index (l : list variant) (i : N) : option variant :=
  find (fun v => (v_index v =? i)%N) l.

(** *** Bit sequences *)

Definition bit_store (id : N) : option uwidth :=
  match lookup types id with
  | Some (Ty _ _ (TPrimitive (PrU w)) _) =>
      match w with U128 => None | _ => Some w end
  | _ => None
  end.

Definition bit_order_of (id : N) : option bit_order :=
  match lookup types id with
  | Some (Ty path _ (TComposite _) _) =>
      if String.eqb (List.last path "") "Lsb0" then Some Lsb0
      else if String.eqb (List.last path "") "Msb0" then Some Msb0
      else None
  | _ => None
  end.

(** The i-th bit of a vector of [w]-elements. *)
Definition nth_bit (w : uwidth) (o : bit_order) (elems : list N) (i : nat) : bool :=
  let bits := (8 * usize w)%nat in
  let x := nth (i / bits) elems 0%N in
  N.testbit x (N.of_nat (match o with Lsb0 => i mod bits | Msb0 => bits - 1 - i mod bits end)).

Definition the_bits (w : uwidth) (o : bit_order) (n : N) (elems : list N) : list bool :=
  map (nth_bit w o elems) (seq 0 (N.to_nat n)).

(** Longest bit vector accepted by the codec: 2^29 - 1 bits. *)
Definition max_bits : N := 2 ^ 29 - 1.

(** *** Encoding *)

Definition guard (b : bool) (l : bytes) : option bytes := if b then Some l else None.

(** Concatenation of encodings of values at types. *)
Definition enc_list {A} (f : A -> value -> option bytes) : list A -> list value -> option bytes :=
  fix go (ids : list A) (vs : list value) {struct vs} : option bytes :=
    match ids, vs with
    | [], [] => Some []
    | i :: ids', v :: vs' =>
        match f i v, go ids' vs' with
        | Some a, Some b => Some (a ++ b)
        | _, _ => None
        end
    | _, _ => None
    end.

Definition enc_all (f : value -> option bytes) : list value -> option bytes :=
  fix go (vs : list value) : option bytes :=
    match vs with
    | [] => Some []
    | v :: vs' =>
        match f v, go vs' with
        | Some a, Some b => Some (a ++ b)
        | _, _ => None
        end
    end.

Definition is_bytesb (l : bytes) : bool := forallb (fun b => (b <? 256)%N) l.

(** [enc cpt id v]: the SCALE encoding of [v] as a value of type [id], [None] if it is not
    one; [cpt] says that the value is inside a compact. *)
Fixpoint enc (cpt : bool) (id : N) (v : value) {struct v} : option bytes :=
  match lookup types id with
  | None => None
  | Some t =>
      match v with
      | VNum n =>
          match classify t, def_of t with
          | SpPer k, _ =>
              if cpt then guard (fits (part_width k) n) (compact_enc n)
              else guard (n <=? whole k)%N (le_bytes (usize (part_width k)) n)
          | _, Some (TPrimitive (PrU w)) =>
              guard (fits w n) (if cpt then compact_enc n else le_bytes (usize w) n)
          | _, Some (TPrimitive PrU256) =>
              guard (negb cpt && (n <? 2 ^ 256)%N) (le_bytes 32 n)
          | _, Some (TPrimitive PrChar) => guard (negb cpt && scalar n) (le_bytes 4 n)
          | _, _ => None
          end
      | VInt z =>
          let int k :=
            guard (negb cpt && (- 2 ^ (8 * Z.of_nat k - 1) <=? z)%Z
                   && (z <? 2 ^ (8 * Z.of_nat k - 1))%Z)
                  (le_bytes k (Z.to_N (z mod 2 ^ (8 * Z.of_nat k)))) in
          match def_of t with
          | Some (TPrimitive (PrI w)) => int (usize w)
          | Some (TPrimitive PrI256) => int 32%nat
          | _ => None
          end
      | VBool b =>
          match def_of t with
          | Some (TPrimitive PrBool) => guard (negb cpt) [if b then 1%N else 0%N]
          | _ => None
          end
      | VStr l =>
          match def_of t with
          | Some (TPrimitive PrStr) =>
              let n := N.of_nat (List.length (utf8s l)) in
              guard (negb cpt && forallb scalar l && fits U32 n) (compact_enc n ++ utf8s l)
          | _ => None
          end
      | VStruct vs =>
          match def_of t with
          | Some (TComposite fs) =>
              if cpt && Nat.leb 2 (List.length fs) then None
              else enc_list (fun f => enc cpt (f_ty f)) fs vs
          | _ => None
          end
      | VTuple vs =>
          match def_of t with
          | Some (TTuple ids) =>
              if cpt && Nat.leb 2 (List.length ids) then None
              else enc_list (enc cpt) ids vs
          | _ => None
          end
      | VEnum i vs =>
          match def_of t with
          | Some (TVariant variants) =>
              match by_index variants i with
              | Some var =>
                  match variant_sig t var, pallet_items t var with
                  | None, None =>
                      if negb cpt && (i <? 256)%N then
                        option_map (cons i) (enc_list (fun f => enc false (f_ty f)) (v_fields var) vs)
                      else None
                  | _, _ => None
                  end
              | None => None
              end
          | _ => None
          end
      | VNever =>
          match def_of t with
          | Some (TVariant []) => guard (negb cpt) []
          | _ => None
          end
      | VSeq vs =>
          match def_of t with
          | Some (TSequence elem) =>
              let n := N.of_nat (List.length vs) in
              if negb cpt && fits U32 n
              then option_map (app (compact_enc n)) (enc_all (enc false elem) vs)
              else None
          | _ => None
          end
      | VArr vs =>
          match def_of t with
          | Some (TArray len elem) =>
              if negb cpt && (len =? N.of_nat (List.length vs))%N
              then enc_all (enc false elem) vs
              else None
          | _ => None
          end
      | VCompact v' =>
          match def_of t with
          | Some (TCompact inner) => if cpt then None else enc true inner v'
          | _ => None
          end
      | VBits n elems =>
          match def_of t with
          | Some (TBitSequence store order) =>
              match bit_order_of order, bit_store store with
              | Some _, Some w =>
                  let bits := (8 * N.of_nat (usize w))%N in
                  guard (negb cpt && (n <=? max_bits)%N && forallb (fits w) elems
                         && (N.of_nat (List.length elems) =? (n + bits - 1) / bits)%N)
                        (compact_enc n ++ flat_map (le_bytes (usize w)) elems)
              | _, _ => None
              end
          | _ => None
          end
      | VRaw l =>
          match classify t with
          | SpRaw k => guard (negb cpt && is_bytesb l && Nat.eqb (List.length l) (raw_len k)) l
          | SpHash => guard (negb cpt && is_bytesb l && Nat.eqb (List.length l) 32) l
          | _ => None
          end
      | VEra e =>
          match classify t with
          | SpEra => guard (negb cpt && era_valid e) (era_enc e)
          | _ => None
          end
      | VSig i l =>
          match def_of t with
          | Some (TVariant variants) =>
              match by_index variants i with
              | Some var =>
                  match variant_sig t var with
                  | Some k =>
                      guard (negb cpt && (i <? 256)%N && is_bytesb l
                             && Nat.eqb (List.length l) (raw_len k)) (i :: l)
                  | None => None
                  end
              | None => None
              end
          | _ => None
          end
      | VItem i j vs =>
          match def_of t with
          | Some (TVariant variants) =>
              match by_index variants i with
              | Some var =>
                  match pallet_items t var with
                  | Some (_, items) =>
                      match by_index items j with
                      | Some item =>
                          if negb cpt && (i <? 256)%N && (j <? 256)%N then
                            option_map (fun l => i :: j :: l)
                              (enc_list (fun f => enc false (f_ty f)) (v_fields item) vs)
                          else None
                      | None => None
                      end
                  | None => None
                  end
              | None => None
              end
          | _ => None
          end
      end
  end.

(** *** Labels *)

Definition field_name_labels : list (string * hint) :=
  [("nonce", HFieldNonce); ("spec_version", HFieldSpecVersion); ("spec_name", HFieldSpecName);
   ("tx_version", HFieldTxVersion); ("transaction_version", HFieldTxVersion)].

Definition balance_type_names : list string :=
  ["Balance"; "T::Balance"; "BalanceOf<T>"; "BalanceOf<T, I>"; "ExtendedBalance";
   "DepositBalance"; "PalletBalanceOf<T>"].

(** Label given by a field: by its name, else by its type name. *)
Definition field_label (f : field) : hint :=
  match (match f_name f with
         | Some n => find (fun x => String.eqb (fst x) n) field_name_labels
         | None => None
         end) with
  | Some (_, h) => h
  | None =>
      match f_type_name f with
      | Some n => if existsb (String.eqb n) balance_type_names then HFieldBalance else HNone
      | None => HNone
      end
  end.

Definition path_labels : list (string * hint) :=
  [("CheckNonce", HCheckNonce); ("ChargeTransactionPayment", HChargeTransactionPayment);
   ("ChargeAssetTxPayment", HChargeAssetTxPayment)].

(** Label given by the last path segment of a tuple element type. *)
Definition path_label (t : ty) : hint :=
  match find (fun x => String.eqb (fst x) (List.last (t_path t) "")) path_labels with
  | Some (_, h) => h
  | None => HNone
  end.

(** An outer label wins over an inner one. *)
Definition or_label (h h' : hint) : hint := match h with HNone => h' | _ => h end.

(** Labels do not pass into structs and tuples with several members, except for the
    asset tip. *)
Definition pass_label (h : hint) (n : nat) : hint :=
  if Nat.leb 2 n then match h with HChargeAssetTxPayment => h | _ => HNone end else h.

Definition uint_labels (h : hint) : spec_uint :=
  match h with
  | HNone => SuNone
  | HCheckSpecVersion => SuSpecVersion
  | HCheckTxVersion => SuTxVersion
  | HCheckGenesis => SuNone
  | HCheckMortality => SuNone
  | HCheckNonce => SuNonce
  | HChargeAssetTxPayment => SuTipAsset
  | HChargeTransactionPayment => SuTip
  | HFieldBalance => SuBalance
  | HFieldNonce => SuNonce
  | HFieldSpecName => SuNone
  | HFieldSpecVersion => SuSpecVersion
  | HFieldTxVersion => SuTxVersion
  end.

Definition str_label (h : hint) : spec_str :=
  match h with HFieldSpecName => SsSpecName | _ => SsNone end.

Definition hash_label (h : hint) : spec_hash :=
  match h with HCheckGenesis => ShGenesis | HCheckMortality => ShBlock | _ => ShNone end.

(** *** Parsed form *)

Definition docs_text (l : list string) : string := join (String (ascii_of_nat 10) "") l.

Fixpoint map_opt {A B} (f : A -> option B) (l : list A) : option (list B) :=
  match l with
  | [] => Some []
  | x :: r =>
      match f x, map_opt f r with
      | Some y, Some ys => Some (y :: ys)
      | _, _ => None
      end
  end.

Definition view_list {A B} (f : A -> value -> option B) : list A -> list value -> option (list B) :=
  fix go (ids : list A) (vs : list value) {struct vs} : option (list B) :=
    match ids, vs with
    | [], [] => Some []
    | i :: ids', v :: vs' =>
        match f i v, go ids' vs' with
        | Some a, Some b => Some (a :: b)
        | _, _ => None
        end
    | _, _ => None
    end.

Definition width_eqb (a b : uwidth) : bool := Nat.eqb (usize a) (usize b).

(** Collecting elements: unlabelled integers of one width, or byte strings. *)
Definition collect (l : list pdata) : option sequence :=
  match l with
  | DUInt w _ _ :: _ =>
      option_map (SeqU w)
        (map_opt (fun d => match d with
                           | DUInt w' n SuNone => if width_eqb w w' then Some n else None
                           | _ => None
                           end) l)
  | DSequence inf (SeqU U8 _) :: _ =>
      option_map (fun x => SeqVecU8 x inf)
        (map_opt (fun d => match d with
                           | DSequence inf' (SeqU U8 a) => if infos_eqb inf inf' then Some a else None
                           | DSequenceRaw _ [] => Some []
                           | _ => None
                           end) l)
  | _ => None
  end.

Definition sequence_of (inf : list info) (l : list pdata) : pdata :=
  match collect l with
  | Some s => DSequence inf s
  | None => DSequenceRaw inf l
  end.

Definition field_form (f : field) (x : pdata * list info) : fdata pdata :=
  FData (f_name f) (f_type_name f) (docs_text (f_docs f)) (Ext (fst x) (snd x)).

(** [view elem h id v]: the parsed form of [v] as a value of type [id] under label [h],
    with the type information; [elem] says that it is an element of a vector or array, so
    that single-field structs are not shown. *)
Fixpoint view (elem : bool) (h : hint) (id : N) (v : value) {struct v}
  : option (pdata * list info) :=
  match lookup types id with
  | None => None
  | Some t =>
      let some d := Some (d, own_info t) in
      let fields h fs vs :=
        view_list (fun f v => option_map (field_form f)
                                (view false (or_label (pass_label h (List.length fs)) (field_label f))
                                      (f_ty f) v)) fs vs in
      let elements el vs :=
        match peel_from [] el,
              (fix go (vs : list value) : option (list pdata) :=
                 match vs with
                 | [] => Some []
                 | v :: vs' =>
                     match view true HNone el v, go vs' with
                     | Some (d, _), Some ds => Some (d :: ds)
                     | _, _ => None
                     end
                 end) vs with
        | Some (inf, _), Some ds => some (sequence_of inf ds)
        | _, _ => None
        end in
      match v with
      | VNum n =>
          match classify t, def_of t with
          | SpPer k, _ => some (DPer k (N.min n (whole k)))
          | _, Some (TPrimitive (PrU w)) => some (DUInt w n (uint_labels h))
          | _, Some (TPrimitive PrU256) => some (DU256 n)
          | _, Some (TPrimitive PrChar) => some (DChar n)
          | _, _ => None
          end
      | VInt z =>
          match def_of t with
          | Some (TPrimitive (PrI w)) => some (DInt w z)
          | Some (TPrimitive PrI256) => some (DI256 z)
          | _ => None
          end
      | VBool b => some (DBool b)
      | VStr l => some (DText (utf8s l) (str_label h))
      | VStruct vs =>
          match def_of t with
          | Some (TComposite fs) =>
              match elem, transparent t, fs, vs with
              | true, Some _, [f], [v'] => view true (or_label h (field_label f)) (f_ty f) v'
              | _, _, _, _ => match fields h fs vs with Some l => some (DComposite l) | None => None end
              end
          | _ => None
          end
      | VTuple vs =>
          match def_of t with
          | Some (TTuple ids) =>
              match view_list (fun i v =>
                      match lookup types i with
                      | Some ti =>
                          option_map (fun x => Ext (fst x) (snd x))
                            (view false (or_label (pass_label h (List.length ids)) (path_label ti)) i v)
                      | None => None
                      end) ids vs with
              | Some l => some (DTuple l)
              | None => None
              end
          | _ => None
          end
      | VEnum i vs =>
          match def_of t with
          | Some (TVariant variants) =>
              match by_index variants i with
              | Some var =>
                  match fields HNone (v_fields var) vs with
                  | Some l => some (DVariant (VData (v_name var) (docs_text (v_docs var)) l))
                  | None => None
                  end
              | None => None
              end
          | _ => None
          end
      | VNever => some DEmptyEnum
      | VSeq vs =>
          match def_of t with
          | Some (TSequence el) => elements el vs
          | _ => None
          end
      | VArr vs =>
          match def_of t with
          | Some (TArray _ el) => elements el vs
          | _ => None
          end
      | VCompact v' =>
          match def_of t with
          | Some (TCompact inner) =>
              match view (elem && match transparent t with Some _ => true | None => false end)
                         h inner v' with
              | Some (d, l) => Some (d, own_info t ++ l)
              | None => None
              end
          | _ => None
          end
      | VBits n elems =>
          match def_of t with
          | Some (TBitSequence store order) =>
              match bit_order_of order, bit_store store with
              | Some o, Some w => some (DBitVec w o (the_bits w o n elems))
              | _, _ => None
              end
          | _ => None
          end
      | VRaw l =>
          match classify t with
          | SpRaw k => some (DFixed k l)
          | SpHash => some (DHash (hash_label h) l)
          | _ => None
          end
      | VEra e => some (DEra e)
      | VSig i l =>
          match def_of t with
          | Some (TVariant variants) =>
              match by_index variants i with
              | Some var =>
                  match variant_sig t var with
                  | Some k => some (DFixed k l)
                  | None => None
                  end
              | None => None
              end
          | _ => None
          end
      | VItem i j vs =>
          match def_of t with
          | Some (TVariant variants) =>
              match by_index variants i with
              | Some var =>
                  match pallet_items t var with
                  | Some (inner, items) =>
                      match by_index items j with
                      | Some item =>
                          match fields HNone (v_fields item) vs with
                          | Some l =>
                              let d := PSData (Info (docs_text (t_docs inner)) (t_path inner))
                                         (docs_text (v_docs item)) (v_name var) (v_name item) l in
                              some (match classify t with SpItem ItEvent => DEvent d | _ => DCall d end)
                          | None => None
                          end
                      | None => None
                      end
                  | None => None
                  end
              | None => None
              end
          | _ => None
          end
      end
  end.

(** *** Cycles *)

(** Type [a] contains type [b] without an enum or a vector in between. *)
Definition contains (a b : N) : Prop :=
  exists t, lookup types a = Some t /\
  match def_of t with
  | Some (TComposite fs) => exists f, In f fs /\ f_ty f = b
  | Some (TTuple ids) => In b ids
  | Some (TArray _ elem) => elem = b
  | Some (TCompact inner) => inner = b
  | _ => False
  end.

Definition acyclic : Prop := forall id, ~ clos_trans N contains id id.

End Spec.
