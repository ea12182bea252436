(** The kinds of error, by the stage of reading that reports them. *)
From Verif Require Import Base.

(** Opening a file: the container, the package and the object store in it. *)
Definition container_kinds : list ekind :=
  [UnexpectedEof; MalformedData; MalformedFssHttpBData; MalformedOneStoreData].

(** Reading a section out of the store. *)
Definition document_kinds : list ekind :=
  [UnexpectedEof; MalformedOneNoteData; MalformedOneNoteFileData; Utf16Error].

(** Reading a table of contents out of the store. *)
Definition toc_kinds : list ekind := [MalformedOneNoteData; MalformedOneNoteFileData].

(** Dealing with the file system. *)
Definition path_kinds : list ekind := [IO; InvalidPath; TocFileMissing].
