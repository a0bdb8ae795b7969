(** Errors as text (src/error.rs), and the conversions from numbers of src/types.rs, which fail with errors of their own. *)

From Coq Require Import List NArith Bool String.
From Verif Require Import Base Utf Types Display Described.
Import ListNotations.
Local Open Scope list_scope.
Local Open Scope N_scope.

(** [Debug] of [ErrorKind] (derived, error.rs 9) and of [Fourcc] (ident.rs 202-206).  [inner] is the [Debug] text of the error of
    the standard library that the kinds [Io] and [Utf8StringDecoding] carry. *)
Definition kind_text (e : err) (inner : ustring) : ustring :=
  match e with
  | EAtomNotFound f => txt "AtomNotFound(Fourcc(" ++ fc_text f ++ txt "))"
  | EDescriptorNotFound n => txt "DescriptorNotFound(" ++ dec n ++ txt ")"
  | EParsing => txt "Parsing"
  | ENoTag => txt "NoTag"
  | EUnknownChannelConfig n => txt "UnknownChannelConfig(" ++ dec n ++ txt ")"
  | EUnknownDataType n => txt "UnknownDataType(" ++ dec n ++ txt ")"
  | EUnknownMediaType n => txt "UnknownMediaType(" ++ dec n ++ txt ")"
  | EUnknownVersion n => txt "UnknownVersion(" ++ dec n ++ txt ")"
  | EUtf8 => txt "Utf8StringDecoding(" ++ inner ++ txt ")"
  | EUtf16 => txt "Utf16StringDecoding(FromUtf16Error(()))"
  | EUnwritableData => txt "UnwritableData"
  | EIoEof | EIoSeek => txt "Io(" ++ inner ++ txt ")"
  end.

(** [Display] of [Error], error.rs 99-107; [Debug], 89-97, is the same. *)
Definition error_text (e : err) (inner description : ustring) : ustring :=
  match description with
  | [] => kind_text e inner
  | _ => kind_text e inner ++ txt ": " ++ description
  end.

(** [error::Error::cause], error.rs 57-62: whether there is one. *)
Definition has_cause (e : err) : bool := match e with EIoEof | EIoSeek => true | _ => false end.

(** * Conversions from numbers *)

(** [TryFrom<u8> for ChannelConfig], types.rs 212-230. *)
Definition try_channel_config (n : N) : dres channel_config :=
  match channel_config_of n with
  | Some c => DOk c
  | None => DErr (EUnknownChannelConfig n) (txt "Unknown channel config index")
  end.
(** [TryFrom<u8> for SampleRate], types.rs 293-316: the kind is the one of channel configurations. *)
Definition try_sample_rate (n : N) : dres sample_rate :=
  match sample_rate_of n with
  | Some r => DOk r
  | None => DErr (EUnknownChannelConfig n) (txt "Unknown sample rate index")
  end.
(** [TryFrom<u8> for MediaType], types.rs 114-133. *)
Definition try_media_type (n : N) : dres media_type :=
  match media_of n with
  | Some t => DOk t
  | None => DErr (EUnknownMediaType n) (txt "Unknown media type")
  end.
