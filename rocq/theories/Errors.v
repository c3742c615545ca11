(** Texts of the errors: /repo/src/error.rs. `Display` for every error prints `error_text`
    (error.rs:352-399 and 419-457). No proofs here.

    Simplifications: the text of `BufferError` (crate external-memory-tools) and of the error of
    the external memory are parameters. *)
From Verif Require Import Base Compact Types Indicators Decode Sign Unchecked Storage Meta Balance Cards.
Local Open Scope string_scope.

(** error.rs:180-190 `RegistryInternalError::error_text`. *)
Definition int_text (x : int_err) : string :=
  match x with
  | CyclicMetadata id => "Resolving type id " ++ dec_string id ++ " in metadata type registry results in cycling."
  | ExtrinsicNoCallParam => "Extrinsic type in provided metadata has no specified call parameter."
  | NotBitOrderType id => "BitVec type " ++ dec_string id ++ " in metadata type registry has unexpected BitOrder type."
  | NotBitStoreType id => "BitVec type " ++ dec_string id ++ " in metadata type registry has unexpected BitStore type."
  | TypeNotResolved id => "Unable to resolve type id " ++ dec_string id ++ " in metadata type registry."
  | UnexpectedCompactInsides id =>
      "Compact type " ++ dec_string id ++ " in metadata type registry has unexpected type inside compact."
  | UnexpectedExtrinsicTypeR id =>
      "Decoding is based on assumption that extrinsic type resolves into a SCALE-encoded opaque `Vec<u8>`. Unexpected type description is found for type "
      ++ dec_string id ++ " in metadata type registry."
  end.

(** error.rs:225-234 `ExtensionsError::error_text`. *)
Definition extensions_text (x : ext_err) : string :=
  match x with
  | BlockHashTwice => "Signable transaction extensions contain more than one block hash entry."
  | EraTwice => "Signable transaction extensions contain more than one `Era` entry."
  | GenesisHashTwice => "Signable transaction extensions contain more than one genesis hash entry. Unable to verify that correct chain is used for parsing."
  | NoGenesisHash => "Signable transaction extensions do not include chain genesis hash. Unable to verify that correct chain is used for parsing."
  | NoSpecVersion => "Signable transaction extensions do not include metadata spec version. Unable to verify that correct metadata version is used for parsing."
  | SpecVersionTwice => "Signable transaction extensions contain more than one metadata spec version. Unable to verify that correct metadata version is used for parsing."
  end.

(** error.rs:296-323 `MetaVersionErrorPallets::error_text`. *)
Definition version_text (x : version_err) : string :=
  match x with
  | NoSpecNameIdentifier => "No spec name found in decoded `Version` constant."
  | NoSpecVersionIdentifier => "No spec version found in decoded `Version` constant."
  | NoSystemPallet => "No `System` pallet in metadata."
  | NoVersionInConstants => "No `Version` constant in metadata `System` pallet."
  | RuntimeVersionNotDecodeable => "`Version` constant from metadata `System` pallet could not be decoded."
  | SpecNameIdentifierTwice => "Spec name associated identifier found twice when decoding `Version` constant."
  | SpecVersionIdentifierTwice => "Spec version associated identifier found twice when decoding `Version` constant."
  | UnexpectedRuntimeVersionFormat => "Decoded `Version` constant is not a composite."
  end.

(** error.rs:250-260 `MetaStructureErrorV14::error_text`. *)
Definition v14_text (x : v14_err) : string :=
  match x with
  | ExtrinsicTypeNotResolved y => "Unable to resolve in registry the chain extrinsic type. " ++ int_text y
  | NoAddressParam => "Unchecked extrinsic type in provided metadata has no specified address parameter."
  | NoCallParam => "Unchecked extrinsic type in provided metadata has no specified call parameter."
  | NoExtraParam => "Unchecked extrinsic type in provided metadata has no specified extra parameter."
  | NoSignatureParam => "Unchecked extrinsic type in provided metadata has no specified signature parameter."
  | UnexpectedExtrinsicType id =>
      "Decoding is based on assumption that extrinsic type resolves into a SCALE-encoded opaque `Vec<u8>`. Unexpected type description is found for type "
      ++ dec_string id ++ " in metadata type registry."
  | V14Version y => version_text y
  end.

Section Texts.
(** Text of `BufferError`; text of the error of the external memory. *)
Variable buffer_text : buf_err -> string.
Variable external_text : N -> string.

(** error.rs:155-164 `RegistryError::error_text`. *)
Definition registry_text (x : reg_err) : string :=
  match x with
  | RExternal code => "Error accessing type from external memory. " ++ external_text code
  | RInternal y => int_text y
  end.

(** error.rs:125-144 `ParserError::error_text`. *)
Definition parser_text (x : parser_err) : string :=
  match x with
  | PBuffer y => buffer_text y
  | PRegistry y => registry_text y
  | NoCompact position =>
      "Expected compact starting at position " ++ nat_string position ++ ", not found one."
  | SomeDataNotUsedBlob from =>
      "Some data (input positions [" ++ nat_string from ++ "..]) remained unused after decoding."
  | TypeFailure position ty =>
      "Unable to decode data starting at position " ++ nat_string position ++ " as " ++ ty ++ "."
  | UnexpectedEnumVariant position =>
      "Encountered unexpected enum variant at position " ++ nat_string position ++ "."
  end.

(** error.rs:83-110 `StorageError::error_text`. *)
Definition storage_text (x : storage_err) : string :=
  match x with
  | KeyPartHashMismatch => "Hash part of the storage key does not match the key data."
  | KeyPartsUnused => "During the storage key parsing a part of the key remained unused."
  | KeyShorterThanPrefix => "Provided storage key is shorter than the expected prefix."
  | MultipleHashesNotATuple => "Hashers length is not 1, but the key type is not a tuple."
  | MultipleHashesNumberMismatch => "Hashers length does not match the number of fields in a tuple key type."
  | ParsingKey y => "Error parsing the storage key. " ++ parser_text y
  | ParsingValue y => "Error parsing the storage value. " ++ parser_text y
  | PlainKeyExceedsPrefix => "Plain storage key contains data other than the prefix."
  end.

Section Meta.
Context {ME : Type}.
(** Text of the metadata structure error, `M::MetaStructureError`. *)
Variable meta_text : ME -> string.

(** error.rs:53-66 `SignableError::error_text`. *)
Definition signable_text (x : signable_err ME) : string :=
  match x with
  | CutSignable => "Unable to separate signable transaction data into call data and extensions data."
  | ExtensionsList y => extensions_text y
  | ImmortalHashMismatch => "Extensions error. Block hash does not match the chain genesis hash in transaction with immortal `Era`."
  | MetaStructure y => "Unexpected structure of the metadata. " ++ meta_text y
  | NotACall id =>
      "Decoded signable transaction is not a call. Unexpected structure of calls descriptor type " ++ dec_string id ++ "."
  | Parsing y => "Parsing error. " ++ parser_text y
  | SomeDataNotUsedCall from to =>
      "Some call data (input positions [" ++ nat_string from ++ ".." ++ nat_string to ++ "]) remained unused after decoding."
  | SomeDataNotUsedExtensions from =>
      "Some extensions data (input positions [" ++ nat_string from ++ "..]) remained unused after decoding."
  | WrongGenesisHash as_decoded expected =>
      "Wrong chain. Apparent genesis hash in extensions " ++ hex_encode as_decoded ++ " does not match the expected one " ++ hex_encode expected ++ "."
  | WrongSpecVersion as_decoded in_metadata =>
      "Wrong metadata spec version. When decoding extensions data with metadata version " ++ in_metadata
      ++ ", the apparent spec version in extensions is " ++ as_decoded ++ "."
  end.

(** error.rs:341-349 `UncheckedExtrinsicError::error_text`. *)
Definition unchecked_text (x : unchecked_err ME) : string :=
  match x with
  | FormatNoCompact => "Unchecked extrinsic was expected to be a SCALE-encoded opaque `Vec<u8>`. Have not found a compact indicating vector length."
  | UMetaStructure y => "Unexpected structure of the metadata. " ++ meta_text y
  | UParsing y => "Error parsing unchecked extrinsic data. " ++ parser_text y
  | VersionMismatch version_byte version =>
      "Version byte in unchecked extrinsic " ++ dec_string version_byte ++ " does not match with version "
      ++ dec_string version ++ " from provided metadata. Last 7 bits were expected to be identical."
  | UnexpectedCallTy id =>
      "Parameter type for call " ++ dec_string id
      ++ " in metadata type registry is not a call type, and does not match known call type descriptors."
  end.
End Meta.
End Texts.
