(** Example notebooks and file systems, used only in [Example]s and in witnesses of
    [_refuted] theorems. *)
From Verif Require Import Base Codec SpecCodec Package SpecPackage PropSet SpecPropSet Store Shapes Props Nodes Doc
  SpecStore ExampleFile ExampleSection Notebook.

(** Tables of contents *)
Definition toc_entry_obj (id k : N) (n : name) : ex_object :=
  obj id 0x20001 [(0x1D6B, utf16 n); (0x1CB9, SU32 k)] [].
Definition toc_folder_obj (id : N) (children : list N) : ex_object :=
  obj id 0x20001 [(0x1CF6, ids (N.of_nat (length children))); (0x1CBE, SU32 0x00030201)] children.
Definition toc_file (os : list ex_object) : list N :=
  ex_file 0xE4DBFD38E5C7408BA8A10E7B421E1F5F [IxCell root_cell (xid 30) (xser 30)]
    [ xel 30 (ElCell (xid 31));
      xel 31 (ElRevision (xid 31) (ExGuid 0 0) [RvRoot (role_id DefaultContent) (xid 101); RvGroup (xid 32)]);
      xel 32 (ex_group os) ].

(** Names: "a", "b", "a.one", "t.onetoc2" *)
Definition name_a : name := [97].
Definition name_b : name := [98].
Definition name_one : name := [97; 46; 111; 110; 101].
Definition name_toc : name := [116; 46; 111; 110; 101; 116; 111; 99; 50].
(** The directory "/n" *)
Definition home : path := [RootDir; Normal [110]].

(** Files and directories without links. *)
Definition path_eqb (p q : path) : bool :=
  Nat.eqb (length p) (length q) && forallb (fun x => component_eqb (fst x) (snd x)) (combine p q).
Definition plain_fs (files : list (path * list N)) (dirs : list (path * list name)) : filesystem :=
  let file p := option_map snd (find (fun f => path_eqb p (fst f)) files) in
  let dir p := option_map snd (find (fun d => path_eqb p (fst d)) dirs) in
  let some {A} (x : option A) := match x with Some _ => true | None => false end in
  FileSystem (fun p => some (file p) || some (dir p)) (fun p => some (file p))
    (fun p => if some (file p) || some (dir p) then Some p else None) file
    (fun p => option_map (map Some) (dir p)).

(** The directory "/n" holds a table of contents listing "a" and "b", which are links
    to "/n" itself. [limit] is the number of links the system follows in one path. *)
Definition is_link (c : component) : bool :=
  match c with Normal n => name_eqb n name_a || name_eqb n name_b | _ => false end.
Fixpoint strip (base p : path) : option path :=
  match base, p with
  | [], _ => Some p
  | b :: base', c :: p' => if component_eqb b c then strip base' p' else None
  | _ :: _, [] => None
  end.
Definition within (limit : option nat) (n : nat) : bool :=
  match limit with None => true | Some l => Nat.leb n l end.
Definition follow (limit : option nat) (p : path) : option path :=
  match strip home p with
  | None => None
  | Some r =>
    if forallb is_link r && within limit (length r) then Some home
    else match rev r with
         | Normal n :: r' =>
           if name_eqb n name_toc && (forallb is_link r' && within limit (length r'))
           then Some (home ++ [Normal name_toc]) else None
         | _ => None
         end
  end.
Definition link_toc : list N :=
  toc_file [toc_folder_obj 101 [102; 103]; toc_entry_obj 102 1 name_a; toc_entry_obj 103 2 name_b].
Definition link_fs (limit : option nat) : filesystem :=
  let is p q := match follow limit p with Some r => path_eqb r q | None => false end in
  FileSystem (fun p => match follow limit p with Some _ => true | None => false end)
    (fun p => is p (home ++ [Normal name_toc])) (follow limit)
    (fun p => if is p (home ++ [Normal name_toc]) then Some link_toc else None)
    (fun p => if is p home then Some [Some name_toc; Some name_a; Some name_b] else None).

(** A notebook: "a" is a section group, "a.one" a section, "c" does not exist, and the
    recycle bin is listed. The names are in two folders and out of order. *)
Definition sample_toc : list N :=
  toc_file [toc_folder_obj 101 [102; 103; 104]; toc_entry_obj 102 7 name_one; toc_folder_obj 103 [105; 106; 107];
            toc_entry_obj 104 9 name_one; toc_entry_obj 105 5 recycle_bin; toc_entry_obj 106 2 name_a; toc_entry_obj 107 7 [99]].
Definition empty_toc : list N := toc_file [toc_folder_obj 101 []].
Definition sample_section : list N := section_file None [page_meta_object; manifest_object; page_obj [] []] [] [].
Definition sample_files : list (path * list N) :=
  [ (home ++ [Normal name_toc], sample_toc); (home ++ [Normal name_one], sample_section);
    (home ++ [Normal name_a; Normal name_toc], empty_toc) ].
Definition sample_dirs : list (path * list name) :=
  [ (home, [name_toc; name_one; name_a; recycle_bin]); (home ++ [Normal name_a], [name_one; name_toc]);
    (home ++ [Normal recycle_bin], []) ].
Definition sample_fs : filesystem := plain_fs sample_files sample_dirs.

(** The same notebook seen from inside its directory, by relative paths. The empty
    path has no canonical form. *)
Definition bare_fs : filesystem :=
  let at_ p := match p with [] => [] | _ => home ++ filter (fun c => negb (component_eqb c CurDir)) p end in
  FileSystem (fun p => fs_exists sample_fs (at_ p)) (fun p => fs_is_file sample_fs (at_ p))
    (fun p => match p with [] => None | _ => fs_canonicalize sample_fs (at_ p) end)
    (fun p => fs_read sample_fs (at_ p)) (fun p => fs_read_dir sample_fs (at_ p)).

(** The table of contents of the group "/n/a" is a link to "/s". *)
Definition outside : path := [RootDir; Normal [115]].
Definition linked_toc_fs (content : list N) : filesystem :=
  let fs := plain_fs [(home ++ [Normal name_toc], toc_file [toc_folder_obj 101 [102]; toc_entry_obj 102 1 name_a]);
                      (home ++ [Normal name_a; Normal name_toc], content); (outside, content)]
                     [(home, [name_toc; name_a]); (home ++ [Normal name_a], [name_toc])] in
  FileSystem (fs_exists fs) (fs_is_file fs)
    (fun p => if path_eqb p (home ++ [Normal name_a; Normal name_toc]) then Some outside else fs_canonicalize fs p)
    (fs_read fs) (fs_read_dir fs).
