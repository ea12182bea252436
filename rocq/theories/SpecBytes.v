(** For the statements about paths as bytes. *)
From Verif Require Import Base SpecCodec Notebook Unix SpecUnix Message Bytes.

(** The operating system answers for the bytes of a Unicode text as [T] does for the
    text; the names it gives are the UTF-8 of Unicode texts, and files hold bytes. *)
Record spelled (B T : tfilesystem) : Prop := {
  sp_exists : forall t, Forall scalar t -> tfs_exists B (utf8 t) = tfs_exists T t;
  sp_is_file : forall t, Forall scalar t -> tfs_is_file B (utf8 t) = tfs_is_file T t;
  sp_canonicalize : forall t, Forall scalar t -> tfs_canonicalize B (utf8 t) = option_map utf8 (tfs_canonicalize T t);
  sp_canonical : forall t c, tfs_canonicalize T t = Some c -> Forall scalar c;
  sp_read : forall t, Forall scalar t -> tfs_read B (utf8 t) = tfs_read T t;
  sp_bytes : forall t d, tfs_read T t = Some d -> bytes_ok d;
  sp_read_dir : forall t, Forall scalar t -> tfs_read_dir B (utf8 t) = option_map (map (option_map utf8)) (tfs_read_dir T t);
  sp_names : forall t l n, tfs_read_dir T t = Some l -> In (Some n) l -> Forall scalar n }.

(** Files hold bytes. *)
Definition byte_files (B : tfilesystem) : Prop := forall p d, tfs_read B p = Some d -> bytes_ok d.
