(** What is required of the error texts (C52). *)
From Verif Require Import Base Compact Types Indicators Decode Sign Unchecked Storage Meta Balance Cards.
Local Open Scope string_scope.
Local Open Scope list_scope.

(** Among the errors satisfying [ok], the text tells which error it is, with all its details. *)
Definition telling {X} (ok : X -> Prop) (text : X -> string) : Prop :=
  forall x y, ok x -> ok y -> text x = text y -> x = y.

Definition anything {X} (x : X) : Prop := True.

(** How the texts written by this crate for parsing errors begin. *)
Definition openings : list string :=
  ["Error accessing type from external memory. "; "Resolving type id "; "Extrinsic type in "; "BitVec type ";
   "Unable to "; "Compact type "; "Decoding is based "; "Expected compact "; "Some data "; "Encountered "].

(** The texts of `BufferError` (another crate) are told from one another, and do not begin like those. *)
Definition buffer_texts_fit (text : buf_err -> string) : Prop :=
  telling anything text /\ forall x o, In o openings -> String.prefix o (text x) = false.

(** What Rust's types and the parser guarantee for an error: hashes are made of bytes, the version
    found in the extensions is printed in decimal. *)
Definition reported {ME} (x : signable_err ME) : Prop :=
  match x with
  | WrongGenesisHash a b => is_bytes a /\ is_bytes b
  | WrongSpecVersion a _ => exists v, a = dec_string v
  | _ => True
  end.

(** ** What the messages say *)

(** The phrase occurs in the text. *)
Definition says (text phrase : string) : Prop :=
  exists before after, text = append before (append phrase after).

(** Phrases that name the trouble, each value beside the words telling what the value is. *)
Definition int_phrases (x : int_err) : list string :=
  match x with
  | CyclicMetadata id => [append "type id " (dec_string id); "cycling"]
  | ExtrinsicNoCallParam => ["Extrinsic type"; "no specified call parameter"]
  | NotBitOrderType id => [append "BitVec type " (dec_string id); "unexpected BitOrder type"]
  | NotBitStoreType id => [append "BitVec type " (dec_string id); "unexpected BitStore type"]
  | TypeNotResolved id => [append "Unable to resolve type id " (dec_string id)]
  | UnexpectedCompactInsides id => [append "Compact type " (dec_string id); "unexpected type inside compact"]
  | UnexpectedExtrinsicTypeR id => ["extrinsic type"; append "found for type " (dec_string id)]
  end.

Definition ext_phrases (x : ext_err) : list string :=
  match x with
  | BlockHashTwice => ["more than one block hash"]
  | EraTwice => ["more than one `Era`"]
  | GenesisHashTwice => ["more than one genesis hash"]
  | NoGenesisHash => ["do not include chain genesis hash"]
  | NoSpecVersion => ["do not include metadata spec version"]
  | SpecVersionTwice => ["more than one metadata spec version"]
  end.

Definition version_phrases (x : version_err) : list string :=
  match x with
  | NoSpecNameIdentifier => ["No spec name"]
  | NoSpecVersionIdentifier => ["No spec version"]
  | NoSystemPallet => ["No `System` pallet"]
  | NoVersionInConstants => ["No `Version` constant"]
  | RuntimeVersionNotDecodeable => ["`Version` constant"; "could not be decoded"]
  | SpecNameIdentifierTwice => ["Spec name"; "found twice"]
  | SpecVersionIdentifierTwice => ["Spec version"; "found twice"]
  | UnexpectedRuntimeVersionFormat => ["`Version` constant is not a composite"]
  end.

Definition v14_phrases (x : v14_err) : list string :=
  match x with
  | ExtrinsicTypeNotResolved y => "Unable to resolve in registry the chain extrinsic type" :: int_phrases y
  | NoAddressParam => ["no specified address parameter"]
  | NoCallParam => ["no specified call parameter"]
  | NoExtraParam => ["no specified extra parameter"]
  | NoSignatureParam => ["no specified signature parameter"]
  | UnexpectedExtrinsicType id => ["extrinsic type"; append "found for type " (dec_string id)]
  | V14Version y => version_phrases y
  end.

Section Phrases.
Variable buffer_text : buf_err -> string.
Variable external_text : N -> string.

Definition parser_phrases (x : parser_err) : list string :=
  match x with
  | PBuffer y => [buffer_text y]
  | PRegistry (RExternal code) => ["external memory"; external_text code]
  | PRegistry (RInternal y) => int_phrases y
  | NoCompact p => [append "compact starting at position " (nat_string p); "not found"]
  | SomeDataNotUsedBlob from => [append "positions [" (nat_string from); "remained unused"]
  | TypeFailure p ty => [append "starting at position " (nat_string p); "Unable to decode data"; append " as " ty]
  | UnexpectedEnumVariant p => [append "unexpected enum variant at position " (nat_string p)]
  end.

Definition storage_phrases (x : storage_err) : list string :=
  match x with
  | KeyPartHashMismatch => ["Hash part of the storage key does not match"]
  | KeyPartsUnused => ["part of the key remained unused"]
  | KeyShorterThanPrefix => ["shorter than the expected prefix"]
  | MultipleHashesNotATuple => ["not 1"; "not a tuple"]
  | MultipleHashesNumberMismatch => ["does not match the number of fields"]
  | ParsingKey y => "parsing the storage key" :: parser_phrases y
  | ParsingValue y => "parsing the storage value" :: parser_phrases y
  | PlainKeyExceedsPrefix => ["Plain storage key"; "other than the prefix"]
  end.

Section Meta.
Context {ME : Type}.
Variable meta_text : ME -> string.

Definition signable_phrases (x : signable_err ME) : list string :=
  match x with
  | CutSignable => ["Unable to separate"]
  | ExtensionsList y => ext_phrases y
  | ImmortalHashMismatch => ["Block hash does not match the chain genesis hash"; "immortal"]
  | MetaStructure y => ["structure of the metadata"; meta_text y]
  | NotACall id => ["not a call"; append "descriptor type " (dec_string id)]
  | Parsing y => "Parsing error" :: parser_phrases y
  | SomeDataNotUsedCall from to =>
      ["call data"; append "positions [" (append (nat_string from) (append ".." (append (nat_string to) "]"))); "remained unused"]
  | SomeDataNotUsedExtensions from => ["extensions data"; append "positions [" (append (nat_string from) "..]"); "remained unused"]
  | WrongGenesisHash found expected =>
      ["Wrong chain"; append "hash in extensions " (hex_encode found); append "expected one " (hex_encode expected)]
  | WrongSpecVersion found in_metadata =>
      ["Wrong metadata spec version"; append "with metadata version " in_metadata;
       append "spec version in extensions is " found]
  end.

Definition unchecked_phrases (x : unchecked_err ME) : list string :=
  match x with
  | FormatNoCompact => ["not found a compact indicating vector length"]
  | UMetaStructure y => ["structure of the metadata"; meta_text y]
  | UParsing y => "parsing unchecked extrinsic" :: parser_phrases y
  | VersionMismatch byte version =>
      [append "Version byte in unchecked extrinsic " (dec_string byte); append "version " (append (dec_string version) " from provided metadata")]
  | UnexpectedCallTy id => [append "type for call " (dec_string id); "not a call type"]
  end.
End Meta.
End Phrases.
