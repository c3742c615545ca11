(** What storage keys look like (C27-C29). *)
From Verif Require Import Base Compact Types Indicators Decode Storage Spec Api.
Local Open Scope list_scope.

(** Hashers that leave only a hash in the key, with its length. *)
Definition opaque_kind (h : hasher) : option (opaque_hash * nat) :=
  match h with
  | Blake2_128 => Some (HBlake2_128, 16) | Blake2_256 => Some (HBlake2_256, 32)
  | Twox128 => Some (HTwox128, 16) | Twox256 => Some (HTwox256, 32)
  | _ => None
  end%nat.

Section Spec.
(** The hash functions. *)
Variables blake2_128 twox_64 : bytes -> bytes.

(** Hashers that put the encoded key after its hash. *)
Definition concat_kind (h : hasher) : option ((bytes -> bytes) * nat) :=
  match h with
  | Blake2_128Concat => Some (blake2_128, 16)
  | Twox64Concat => Some (twox_64, 8)
  | _ => None
  end%nat.

Variable types : list ty.

(** [bs] is the encoding of a value of type [id] with the parsed form [x]. *)
Definition encodes (id : N) (bs : bytes) (x : ext pdata) : Prop :=
  exists v, enc types false id v = Some bs /\ view types false HNone id v = Some (x_data x, x_info x).

(** [piece h id bs part]: the bytes [bs] of a key, made by hasher [h] from a value of type
    [id], are shown as [part]. *)
Inductive piece (h : hasher) (id : N) : bytes -> key_part -> Prop :=
| P_opaque k n bs : opaque_kind h = Some (k, n) -> List.length bs = n -> piece h id bs (KHash k bs id)
| P_concat f n content x : concat_kind h = Some (f, n) -> List.length (f content) = n ->
    encodes id content x -> piece h id (f content ++ content) (KParsed x)
| P_identity bs x : h = Identity -> encodes id bs x -> piece h id bs (KParsed x).

Inductive pieces : list hasher -> list N -> list bytes -> list key_part -> Prop :=
| PS_nil : pieces [] [] [] []
| PS_cons h id bs x hs ids l xs : piece h id bs x -> pieces hs ids l xs ->
    pieces (h :: hs) (id :: ids) (bs :: l) (x :: xs).

(** What follows the prefix in the key of a map, and how it is shown. One hasher hashes the
    whole key; otherwise the key is a tuple with one hasher for each member. *)
Inductive map_key (hashers : list hasher) (key_ty : N) : bytes -> key_data -> Prop :=
| MK_single h bs x : hashers = [h] -> piece h key_ty bs x -> map_key hashers key_ty bs (KSingle x)
| MK_tuple t ids l xs : List.length hashers <> 1%nat -> lookup types key_ty = Some t -> t_def t = TTuple ids ->
    pieces hashers ids l xs ->
    map_key hashers key_ty (List.concat l) (KTuple xs (Info (docs_text (t_docs t)) (t_path t))).

(** The whole entry. *)
Inductive entry_matches (key value : bytes) : entry_type -> key_data -> ext pdata -> Prop :=
| EM_plain vt x : List.length key = 32%nat -> encodes vt value x -> entry_matches key value (EPlain vt) KPlain x
| EM_map hashers kt vt prefix rest k x : key = prefix ++ rest -> List.length prefix = 32%nat ->
    map_key hashers kt rest k -> encodes vt value x -> entry_matches key value (EMap hashers kt vt) k x.

(** ** The documented answer in every case *)

Variable key : bytes.

Inductive part_answer (h : hasher) (id : N) (p : nat) : (key_part * nat) + storage_err -> Prop :=
| PA_opaque k n : opaque_kind h = Some (k, n) -> (p + n <= List.length key)%nat ->
    part_answer h id p (inl (KHash k (slice key p n) id, (p + n)%nat))
| PA_opaque_short k n : opaque_kind h = Some (k, n) -> (List.length key < p + n)%nat ->
    part_answer h id p (inr (ParsingKey (PBuffer (DataTooShort p (N.of_nat n)))))
| PA_concat_short f n : concat_kind h = Some (f, n) -> (List.length key < p + n)%nat ->
    part_answer h id p (inr (ParsingKey (PBuffer (DataTooShort p (N.of_nat n)))))
| PA_concat_bad f n y q : concat_kind h = Some (f, n) -> (p + n <= List.length key)%nat ->
    decode_at types key id (p + n) = (Err y, q) -> part_answer h id p (inr (ParsingKey y))
| PA_mismatch f n x q : concat_kind h = Some (f, n) -> (p + n <= List.length key)%nat ->
    decode_at types key id (p + n) = (Ok x, q) -> slice key p n <> f (slice key (p + n) (q - (p + n))) ->
    part_answer h id p (inr KeyPartHashMismatch)
| PA_concat f n x q : concat_kind h = Some (f, n) -> (p + n <= List.length key)%nat ->
    decode_at types key id (p + n) = (Ok x, q) -> slice key p n = f (slice key (p + n) (q - (p + n))) ->
    part_answer h id p (inl (KParsed x, q))
| PA_identity_bad y q : h = Identity -> decode_at types key id p = (Err y, q) ->
    part_answer h id p (inr (ParsingKey y))
| PA_identity x q : h = Identity -> decode_at types key id p = (Ok x, q) ->
    part_answer h id p (inl (KParsed x, q)).

Inductive parts_answer : list (hasher * N) -> nat -> (list key_part * nat) + storage_err -> Prop :=
| PR_nil p : parts_answer [] p (inl ([], p))
| PR_cons h id l p x q xs q' : part_answer h id p (inl (x, q)) -> parts_answer l q (inl (xs, q')) ->
    parts_answer ((h, id) :: l) p (inl (x :: xs, q'))
| PR_here h id l p y : part_answer h id p (inr y) -> parts_answer ((h, id) :: l) p (inr y)
| PR_later h id l p x q y : part_answer h id p (inl (x, q)) -> parts_answer l q (inr y) ->
    parts_answer ((h, id) :: l) p (inr y).

(** [start]: where the prefix ends. *)
Inductive key_answer (hashers : list hasher) (kt : N) (start : nat) : key_data + storage_err -> Prop :=
| KA_single h x : hashers = [h] -> part_answer h kt start (inl (x, List.length key)) -> key_answer hashers kt start (inl (KSingle x))
| KA_single_bad h y : hashers = [h] -> part_answer h kt start (inr y) -> key_answer hashers kt start (inr y)
| KA_single_unused h x q : hashers = [h] -> part_answer h kt start (inl (x, q)) -> q <> List.length key ->
    key_answer hashers kt start (inr KeyPartsUnused)
| KA_unresolved : List.length hashers <> 1%nat -> lookup types kt = None ->
    key_answer hashers kt start (inr (ParsingKey (PRegistry (RInternal (TypeNotResolved kt)))))
| KA_not_tuple t : List.length hashers <> 1%nat -> lookup types kt = Some t -> (forall ids, t_def t <> TTuple ids) ->
    key_answer hashers kt start (inr MultipleHashesNotATuple)
| KA_number t ids : List.length hashers <> 1%nat -> lookup types kt = Some t -> t_def t = TTuple ids ->
    List.length ids <> List.length hashers -> key_answer hashers kt start (inr MultipleHashesNumberMismatch)
| KA_tuple t ids xs : List.length hashers <> 1%nat -> lookup types kt = Some t -> t_def t = TTuple ids ->
    List.length ids = List.length hashers ->
    parts_answer (combine hashers ids) start (inl (xs, List.length key)) ->
    key_answer hashers kt start (inl (KTuple xs (Info (docs_text (t_docs t)) (t_path t))))
| KA_tuple_bad t ids y : List.length hashers <> 1%nat -> lookup types kt = Some t -> t_def t = TTuple ids ->
    List.length ids = List.length hashers -> parts_answer (combine hashers ids) start (inr y) ->
    key_answer hashers kt start (inr y)
| KA_tuple_unused t ids xs q : List.length hashers <> 1%nat -> lookup types kt = Some t -> t_def t = TTuple ids ->
    List.length ids = List.length hashers -> parts_answer (combine hashers ids) start (inl (xs, q)) ->
    q <> List.length key -> key_answer hashers kt start (inr KeyPartsUnused).

Inductive entry_answer (value : bytes) (entry : entry_meta) : outcome storage_err storage -> Prop :=
| EA_short : (List.length key < 32)%nat -> entry_answer value entry (Err KeyShorterThanPrefix)
| EA_exceeds vt : (32 < List.length key)%nat -> en_ty entry = EPlain vt -> entry_answer value entry (Err PlainKeyExceedsPrefix)
| EA_plain_bad vt y : List.length key = 32%nat -> en_ty entry = EPlain vt -> decode_all types value vt = Err y ->
    entry_answer value entry (Err (ParsingValue y))
| EA_plain vt x : List.length key = 32%nat -> en_ty entry = EPlain vt -> decode_all types value vt = Ok x ->
    entry_answer value entry (Ok (Storage KPlain x (docs_text (en_docs entry))))
| EA_key_bad hs kt vt y : (32 <= List.length key)%nat -> en_ty entry = EMap hs kt vt -> key_answer hs kt 32 (inr y) ->
    entry_answer value entry (Err y)
| EA_value_bad hs kt vt k y : (32 <= List.length key)%nat -> en_ty entry = EMap hs kt vt -> key_answer hs kt 32 (inl k) ->
    decode_all types value vt = Err y -> entry_answer value entry (Err (ParsingValue y))
| EA_map hs kt vt k x : (32 <= List.length key)%nat -> en_ty entry = EMap hs kt vt -> key_answer hs kt 32 (inl k) ->
    decode_all types value vt = Ok x -> entry_answer value entry (Ok (Storage k x (docs_text (en_docs entry)))).

End Spec.

(** ** Keys as built by a chain *)

Section Chain.
Variables blake2_128 blake2_256 twox_64 twox_128 twox_256 : bytes -> bytes.
Variable types : list ty.

(** What a hasher makes of an encoded key. *)
Definition hashed (h : hasher) (encoded : bytes) : bytes :=
  match h with
  | Blake2_128 => blake2_128 encoded
  | Blake2_256 => blake2_256 encoded
  | Blake2_128Concat => blake2_128 encoded ++ encoded
  | Twox128 => twox_128 encoded
  | Twox256 => twox_256 encoded
  | Twox64Concat => twox_64 encoded ++ encoded
  | Identity => encoded
  end.

(** What the parser can show of it: the value if it is in the key, the hash otherwise. *)
Definition shown_part (h : hasher) (id : N) (encoded : bytes) (x : ext pdata) : key_part :=
  match h with
  | Blake2_128 => KHash HBlake2_128 (blake2_128 encoded) id
  | Blake2_256 => KHash HBlake2_256 (blake2_256 encoded) id
  | Twox128 => KHash HTwox128 (twox_128 encoded) id
  | Twox256 => KHash HTwox256 (twox_256 encoded) id
  | Blake2_128Concat | Twox64Concat | Identity => KParsed x
  end.

Definition hash_lengths : Prop := forall l,
  (List.length (blake2_128 l) = 16 /\ List.length (blake2_256 l) = 32 /\ List.length (twox_64 l) = 8 /\
   List.length (twox_128 l) = 16 /\ List.length (twox_256 l) = 32)%nat.
Definition hash_bytes : Prop := forall l, is_bytes l ->
  is_bytes (blake2_128 l) /\ is_bytes (blake2_256 l) /\ is_bytes (twox_64 l) /\ is_bytes (twox_128 l) /\ is_bytes (twox_256 l).
End Chain.
