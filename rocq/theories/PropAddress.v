(** C67: addresses and the text of bit vectors.  Only statements and examples; proofs in
    ProofAddress.v, specification in SpecAddress.v, the code in Address.v. *)
From Coq Require Import Lia ZifyN.
From Verif Require Import Base Compact Types Indicators Decode Sign Balance Cards Blake2b Twox Address Spec SpecWf SpecCards SpecSee SpecAddress
  ProofBase ProofCards ProofCards2 ProofSee ProofSee2 ProofAddress Sample Api ApiSign SampleChain PropSee.
Local Open Scope string_scope.
Local Open Scope list_scope.

(** ** Base 58 *)

(** The text encodes the bytes; it is the only text that does, and encodes no other bytes. *)
Theorem c67_base58 : forall l, is_bytes l ->
  base58_text (base58_encode l) l /\
  (forall s, base58_text s l -> s = base58_encode l) /\
  (forall l', is_bytes l' -> base58_text (base58_encode l) l' -> l' = l).
Proof.
  intros l Hl. pose proof (base58_encode_text l) as H. split; [exact H|]. split.
  - intros s Hs. exact (base58_text_unique _ _ _ Hs H).
  - intros l' Hl' H'. exact (base58_text_bytes _ _ _ Hl' Hl H' H).
Qed.
Print Assumptions c67_base58.

(** ** Addresses *)

(** An address is one of the key and of the prefix of the chain, of which 14 bits count. *)
Theorem c67_address : forall hash k key p, address_text hash (address_with hash k key p) (p mod 16384) key.
Proof. exact address_text_ok. Qed.
Print Assumptions c67_address.

(** It tells the key and the prefix: no text is an address of two keys or two prefixes. *)
Theorem c67_one_key : forall hash s p p' key key', hash_like hash -> is_bytes key -> is_bytes key' ->
  address_text hash s p key -> address_text hash s p' key' -> p = p' /\ key = key'.
Proof. exact address_text_unique. Qed.
Print Assumptions c67_one_key.

(** So the displayed addresses of different keys differ, whatever kinds of keys they are; and
    those for different chains, if their prefixes are below 2^14. *)
Theorem c67_injective : forall hash k k' key key' p p', hash_like hash -> is_bytes key -> is_bytes key' ->
  address_with hash k key p = address_with hash k' key' p' -> key = key' /\ (p mod 16384 = p' mod 16384)%N.
Proof.
  intros hash k k' key key' p p' Hh Hk Hk' E. pose proof (c67_address hash k key p) as H. rewrite E in H.
  destruct (c67_one_key hash _ _ _ _ _ Hh Hk Hk' H (c67_address hash k' key' p')). auto.
Qed.
Print Assumptions c67_injective.

(** The two bytes of hash make a check: no other text is an address of the same prefix and key. *)
Theorem c67_one_text : forall hash k key p s, address_text hash s (p mod 16384) key -> s = address_with hash k key p.
Proof.
  intros hash k key p s (t & c & Ht & <- & H). destruct (c67_address hash k key p) as (t' & c' & Ht' & <- & H').
  assert (t = t') as <-.
  { destruct Ht as [[A ->]|(A & B & ->)], Ht' as [[A' ->]|(A' & B' & ->)]; try reflexivity; exfalso; lia. }
  exact (base58_text_unique _ _ _ H H').
Qed.
Print Assumptions c67_one_text.

(** Addresses contain only letters and digits, and none of 0, O, I and l. *)
Theorem c67_letters : forall hash k key p c, In c (list_ascii_of_string (address_with hash k key p)) ->
  In c (list_ascii_of_string letters58).
Proof.
  intros hash k key p c Hc. destruct (c67_address hash k key p) as (t & x & _ & _ & z & ds & m & F & _).
  revert F Hc. generalize (repeat 0%N z ++ ds) (list_ascii_of_string (address_with hash k key p)). intros l cs F.
  induction F as [|c' d cs ds' [_ Hg] _ IH]; intros Hc; [destruct Hc|]. destruct Hc as [<-|Hc]; [|auto].
  clear - Hg. revert Hg. generalize (N.to_nat d) letters58. intros n s. revert n.
  induction s as [|x s IH]; intros n Hg; [destruct n; discriminate Hg|]. destruct n as [|n]; cbn [String.get] in Hg.
  - injection Hg as ->. left. reflexivity.
  - right. eapply IH. exact Hg.
Qed.
Print Assumptions c67_letters.

(** Blake2b is such a hash function. *)
Theorem c67_blake : hash_like blake2_512 /\ forall l, is_bytes (blake2_128 l) /\ List.length (blake2_128 l) = 16%nat.
Proof. split; [exact blake_hash_like|]. intros l. apply blake2b_ok. apply Nat.leb_le. reflexivity. Qed.
Print Assumptions c67_blake.

(** ** Display with these addresses and bit strings *)

(** C39, C47 and C48 without hypotheses about them. *)
Theorem c67_formats : base58_faithful address /\ bits_faithful bits_text.
Proof. split; [exact (address_faithful_with _ blake_hash_like)|exact bits_text_faithful]. Qed.
Print Assumptions c67_formats.

Theorem c67_cards : forall identicon specs name u1 u2 i j c, (decimals specs < 256)%N ->
  shows address identicon specs name u1 i c -> shows address identicon specs name u2 j c ->
  in_range i -> in_range j -> alike i j.
Proof. intros identicon specs name u1 u2 i j c Hd. exact (shows_alike address identicon specs name (proj1 c67_formats) Hd u1 u2 i j c). Qed.
Print Assumptions c67_cards.

Theorem c67_lines : forall identicon specs name types data1 data2 id x1 x2 indent db,
  (decimals specs < 256)%N -> told_apart types -> is_bytes data1 -> is_bytes data2 ->
  decode_all types data1 id = Ok x1 -> decode_all types data2 id = Ok x2 -> nothing_hidden (x_data x1) ->
  map (show bits_text) (card_ext address identicon specs name x1 indent db) =
  map (show bits_text) (card_ext address identicon specs name x2 indent db) ->
  data1 = data2.
Proof.
  intros i s n types data1 data2 id x1 x2 k db Hd Ha.
  exact (c47_blob address i s n bits_text types data1 data2 id x1 x2 k db (proj1 c67_formats) (proj2 c67_formats) Hd Ha).
Qed.
Print Assumptions c67_lines.

Theorem c67_transaction : forall identicon specs name ME (c : ApiSign.chain ME) g1 g2 data1 data2 call1 call2 xs1 xs2,
  (decimals specs < 256)%N -> told_apart (ch_types c) -> is_bytes data1 -> is_bytes data2 ->
  transaction c g1 data1 = Ok (TransactionParsed (inl call1) xs1) ->
  transaction c g2 data2 = Ok (TransactionParsed (inl call2) xs2) ->
  nothing_hidden (DCall call1) -> Forall (fun x => nothing_hidden (x_data x)) xs1 ->
  map (show bits_text) (card_call address identicon specs name call1 0 ++ card_extensions address identicon specs name xs1) =
  map (show bits_text) (card_call address identicon specs name call2 0 ++ card_extensions address identicon specs name xs2) ->
  data1 = data2.
Proof.
  intros i s n ME c g1 g2 data1 data2 call1 call2 xs1 xs2 Hd Ha.
  exact (c48_transaction address i s n bits_text ME c g1 g2 data1 data2 call1 call2 xs1 xs2 (proj1 c67_formats) (proj2 c67_formats) Hd Ha).
Qed.
Print Assumptions c67_transaction.

(** ** Examples *)

(** Alice, on Substrate chains, Polkadot, and a chain with a prefix of two bytes. *)
Definition alice : bytes :=
  [212; 53; 147; 199; 21; 253; 211; 28; 97; 20; 26; 189; 4; 169; 159; 214; 130; 44; 133; 88; 133; 76; 205; 227; 154; 86; 132;
   231; 165; 109; 162; 125]%N.
Example c67_alice :
  is_bytes alice /\
  address KAccountId32 alice 42 = "5GrwvaEF5zXb26Fz9rcQpDWS57CtERHpNehXCPcNoHGKutQY" /\
  address KAccountId32 alice 0 = "15oF4uVJwmo4TdGW7VfQxNLavjCXviqxT9S1MgbjMNHr6Sp5" /\
  (* the prefix has 14 bits *)
  address KAccountId32 alice (16384 + 42) = address KAccountId32 alice 42 /\
  prefix_bytes 64 = [80; 0]%N /\ prefix_bytes 255 = [127; 192]%N /\ prefix_bytes 2254 = [115; 136]%N.
Proof. split; [repeat constructor|]; vm_compute; repeat split. Qed.

Example c67_base58_example :
  base58_encode [0; 0; 1; 2; 3]%N = "11Ldp" /\ base58_encode [] = "" /\ base58_encode [0]%N = "1" /\
  base58_encode [72; 101; 108; 108; 111; 32; 87; 111; 114; 108; 100; 33]%N = "2NEpo7TZRRrLZSi2U".
Proof. vm_compute. repeat split. Qed.

Example c67_bits_example :
  bits_text U8 Lsb0 [true; false; true; false; true; false; true; false; true; true] = "[10101010, 11]" /\
  bits_text U16 Msb0 [true; false; true; false; true; false; true; false; true; true] = "[1010101011]" /\
  bits_text U8 Lsb0 [] = "[]".
Proof. vm_compute. repeat split. Qed.

(** Known values of the hash functions. *)
Example c67_hashes :
  hex_encode (blake2_512 [97; 98; 99]%N) = "ba80a53f981c4d0d6a2797b69f12f6e94c212f14685ac4b74b12bb6fdbffa2d17d87c5392aab792dc252d5de4533cc9518d38aa8dbf1925ab92386edd4009923" /\
  hex_encode (blake2_128 []) = "cae66941d9efbd404e4d88758ea67670" /\
  hex_encode (blake2_128 (map N.of_nat (seq 0 200))) = "61479efa6267fea757b3f881e2979bbc" /\
  (* prefixes of the storage key of the tests *)
  hex_encode (twox_128 (map N_of_ascii (list_ascii_of_string "Assets")) ++ twox_128 (map N_of_ascii (list_ascii_of_string "Metadata"))) =
    "682a59d51ab9e48a8c8cc418ff9708d2b5f3822e35ca2f31ce3526eab1363fd2" /\
  (* and its hashed part *)
  hex_encode (blake2_128 [0; 0; 0; 0]%N) = "11d2df4e979aa105cf552e9544ebd2b5".
Proof. vm_compute. repeat split. Qed.
