(** Types that take a context but declare [ctx_default] get the derived entry points of types
    without one: deku implements DekuContainerRead, TryFrom<&[u8]> and DekuContainerWrite for them
    with the default context. *)
From Coq Require Import List NArith ZArith Bool Lia.
From Verif Require Import Base Deku Utils Types Physical Link Network Session Data Query
  Interface File Operation Action Command Frames.
Import ListNotations.
Open Scope N_scope.

(** file/mod.rs:138-144 File, [ctx_default = "FileId::Other, 0"]. The inherent File::from_bytes of
    lines 215-221 ([file_from_bytes] in File.v) is a different function. *)
Definition default_file {E : Env} : reader file := read_file FidOther 0.
Definition file_try_from {E : Env} (d : list N) : res file := d_try_from default_file d.
Definition file_default_from_bytes {E : Env} (d : list N) (off : nat) := d_from_bytes default_file d off.
Definition file_to_bytes {E : Env} (f : file) : res (list N) := to_bytes (write_file f).

(** app/operation/mod.rs:272-277 Status, [ctx_default = "Default::default()"]; the default of
    StatusType is [Action] (lines 259-262). *)
Definition default_status {E : Env} : reader status := read_status StAction.
Definition status_try_from {E : Env} (d : list N) : res status := d_try_from default_status d.
Definition status_from_bytes {E : Env} (d : list N) (off : nat) := d_from_bytes default_status d off.
Definition status_to_bytes {E : Env} (s : status) : res (list N) := to_bytes (write_status s).

(** network/network.rs:30-31 Frame, [ctx_default = "0"]. *)
Definition default_nframe {E : Env} : reader nframe := read_nframe 0.
Definition nframe_try_from {E : Env} (d : list N) : res nframe := d_try_from default_nframe d.
Definition nframe_from_bytes {E : Env} (d : list N) (off : nat) := d_from_bytes default_nframe d off.
Definition nframe_to_bytes {E : Env} (v : nframe) : res (list N) := to_bytes (write_nframe v).

(** transport/mod.rs:48-49 Frame, [ctx_default = "0"]. *)
Definition default_tframe {E : Env} : reader tframe := read_tframe 0.
Definition tframe_try_from {E : Env} (d : list N) : res tframe := d_try_from default_tframe d.
Definition tframe_from_bytes {E : Env} (d : list N) (off : nat) := d_from_bytes default_tframe d off.
Definition tframe_to_bytes {E : Env} (v : tframe) : res (list N) := to_bytes (write_tframe v).
