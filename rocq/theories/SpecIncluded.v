(** Signed extrinsics with a transfer on usual chains (C77): what the metadata have, the bytes a
    wallet sends and a block contains, and the lines that are to be read.  Only definitions;
    nothing of the decoder is used. *)
From Verif Require Import Base Compact Types Sign Balance Cards Spec ApiSign SpecTransfer.
Local Open Scope string_scope.
Local Open Scope list_scope.

Definition is_signature (k : fixed_kind) : Prop := k = KSigEd25519 \/ k = KSigSr25519 \/ k = KSigEcdsa.

Section Types.
Variable types : list ty.

(** A `MultiSignature`: variant [n] holds a signature of the kind [k].  In some metadata the
    signature is a type of its own, then ([form] is the name of the variant) it is shown as part of
    the enum; in others ([form] is None) it is an array of bytes and shown bare. *)
Definition signature_type (id n : N) (form : option string) (k : fixed_kind) : Prop :=
  exists t l v f, lookup types id = Some t /\ classify t = SpMultiSig /\ t_def t = TVariant l /\
    by_index l n = Some v /\ v_fields v = [f] /\
    match form with
    | None => bare_signature types f = Some k
    | Some name => bare_signature types f = None /\ v_name v = name /\ f_name f = None /\ recognised types (f_ty f) (SpRaw k)
    end.

(** The type of an extension has the name of the extension: it is by this name that the nonce and
    the tip are recognised here. *)
Definition named_alike (m : ext_meta) : Prop :=
  exists t, lookup types (em_ty m) = Some t /\ List.last (t_path t) "" = em_identifier m.

(** What goes with a signed extrinsic: address, signature and the extensions in order; all these
    of the kind described. *)
Definition usual_extrinsic (p : extrinsic_params) (exts : list ext_meta) (n : N) (form : option string) (k : fixed_kind) : Prop :=
  is_signature k /\ address_type types (ep_address p) /\ signature_type (ep_signature p) n form k /\
  ordinary types (ep_extra p) (TTuple (map em_ty exts)) /\
  usual_extensions types exts /\ Forall named_alike exts.
End Types.

(** The extensions inside the extrinsic: only the first halves. *)
Definition extra_bytes (s : signing) (l : list ext_meta) : bytes := flat_map (fun m => extension_bytes s (em_identifier m)) l.

(** Length; version with the bit "signed"; the sender as Id; signature of kind [n]; the extensions;
    the call. *)
Definition included_bytes (version : N) (sender : bytes) (n : N) (signature extra call : bytes) : bytes :=
  let content := (128 + version)%N :: (0%N :: sender) ++ (n :: signature) ++ extra ++ call in
  compact_enc (N.of_nat (List.length content)) ++ content.

(** ** What is shown *)

Local Open Scope string_scope.

Section Lines.
Variable base58 : fixed_kind -> bytes -> N -> string.
Variable specs : short_specs.

Definition sender_lines (sender : bytes) : list string :=
  ["Enum"; "  Enum Variant Name: Id"; "    Id: " ++ base58 KAccountId32 sender (base58prefix specs)].

Definition signature_name (k : fixed_kind) : string :=
  match k with
  | KSigEd25519 => "Signature Ed25519"
  | KSigSr25519 => "Signature Sr25519"
  | KSigEcdsa => "Signature Ecdsa"
  | _ => ""
  end.
Definition signature_lines (form : option string) (k : fixed_kind) (signature : bytes) : list string :=
  match form with
  | None => [signature_name k ++ ": " ++ hex_encode signature]
  | Some name => ["Enum"; "  Enum Variant Name: " ++ name; "    " ++ signature_name k ++ ": " ++ hex_encode signature]
  end.

Definition indented (line : string) : string := "  " ++ line.

(** The tuple of all extensions; of those without bytes nothing is seen. *)
Definition extra_lines (s : signing) (l : list ext_meta) : list string :=
  ("Tuple: " ++ dec_string (N.of_nat (List.length l)) ++ " element(s)") ::
  flat_map (fun m => map indented (extension_lines specs s (em_identifier m))) l.
End Lines.
