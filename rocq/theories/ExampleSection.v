(** Example section files, used only in [Example]s and in witnesses of [_refuted]
    theorems: a section with one series of one page, whose objects are given. *)
From Verif Require Import Base Codec SpecCodec Package SpecPackage PropSet SpecPropSet Store Shapes Props Nodes Doc Notebook
  SpecStore ExampleFile.

Definition ids (n : N) : sval := SObjectIds n.
Definition utf16 (s : list N) : sval := SVec (flat_map (fun c => [c; 0]) s).
Definition obj (id jcid : N) (props : list (N * sval)) (refs : list N) : ex_object :=
  ExObject (xid id) jcid props (map xid refs) [].

(** Objects, and files given by object and blob. *)
Definition group_with (os : list ex_object) (files : list (N * N)) : element :=
  match ex_group os with
  | ElGroup decls data =>
    ElGroup (decls ++ map (fun f => DeclBlob (xid (fst f)) (xid (snd f)) 2 0 0) files)
            (data ++ map (fun f => DataBlobRef [] [] (xid (snd f))) files)
  | x => x
  end.

Definition page_cell : cellid := (xid 5, xid 6).
Definition section_objects (name : option (list N)) : list ex_object :=
  [ obj 101 0x60007 [(0x1C30, SVec (guid_enc 11)); (0x1C20, ids 1); (0x1C65, SU64 5)] [103];
    obj 102 0x20031 ([(0x1D82, SU32 1); (0x348B, SU32 2); (0x1CBE, SU32 0x00030201)]
                     ++ match name with Some s => [(0x349B, utf16 s)] | None => [] end) [];
    ExObject (xid 103) 0x60008 [(0x1C30, SVec (guid_enc 12)); (0x1D63, SSpaceIds 1)] [] [page_cell] ].
(** [section_file name objects files blobs]: the objects are those of the page; 201
    is its metadata, 202 its manifest. *)
Definition section_file (name : option (list N)) (os : list ex_object) (files : list (N * N))
           (blobs : list (N * list N)) : list N :=
  ex_file 0x1F937CB4B26F445FB9F817E20160E461
    [IxCell root_cell (xid 30) (xser 30); IxCell page_cell (xid 40) (xser 40)]
    ([ xel 30 (ElCell (xid 31));
       xel 31 (ElRevision (xid 31) (ExGuid 0 0)
         [RvRoot (role_id DefaultContent) (xid 101); RvRoot (role_id MetadataRole) (xid 102); RvGroup (xid 32)]);
       xel 32 (ex_group (section_objects name));
       xel 40 (ElCell (xid 41));
       xel 41 (ElRevision (xid 41) (ExGuid 0 0)
         [RvRoot (role_id DefaultContent) (xid 202); RvRoot (role_id MetadataRole) (xid 201); RvGroup (xid 42)]);
       xel 42 (group_with os files) ]
     ++ map (fun b => xel (fst b) (ElBlob (snd b))) blobs).

(** The objects of pages. *)
Definition page_meta_object : ex_object :=
  obj 201 0x20030 [(0x1C30, SVec (guid_enc 13)); (0x1CF3, utf16 [84]); (0x1DFF, SU32 2); (0x1C65, SU64 4)] [].
Definition manifest_object : ex_object := obj 202 0x60037 [(0x1C1F, ids 1)] [203].
Definition page_obj (title : list N) (contents : list N) : ex_object :=
  obj 203 0x6000B ([(0x1C20, ids (N.of_nat (length contents)))]
                   ++ match title with [] => [] | _ => [(0x1D5F, ids 1)] end ++ [(0x1D75, utf16 [65; 110; 110])])
      (contents ++ title).
Definition title_obj (id : N) (outlines : list N) : ex_object :=
  obj id 0x6002C [(0x1D7A, SU32 1); (0x1C20, ids (N.of_nat (length outlines))); (0x1C14, SU32 0); (0x1C15, SU32 0)] outlines.
Definition outline_obj (id : N) (items : list N) : ex_object :=
  obj id 0x6000C [(0x1D7A, SU32 1); (0x1C20, ids (N.of_nat (length items))); (0x1C03, SU8 1);
                  (0x1C12, SVec [1; 0; 0; 0; 0; 0; 128; 63])] items.
Definition group_obj (id : N) (items : list N) : ex_object :=
  obj id 0x60019 [(0x1D7A, SU32 1); (0x1C20, ids (N.of_nat (length items))); (0x1C03, SU8 2)] items.
(** The authors 250 need not exist. *)
Definition element_obj (id : N) (items contents lists : list N) : ex_object :=
  obj id 0x6000D [(0x1D09, SU32 1); (0x1D7A, SU32 1); (0x1C20, ids (N.of_nat (length items))); (0x1C03, SU8 1);
                  (0x1C1F, ids (N.of_nat (length contents))); (0x1C26, ids (N.of_nat (length lists)));
                  (0x1D78, SObjectId); (0x1D79, SObjectId)]
      (items ++ contents ++ lists ++ [250; 250]).
Definition list_obj (id : N) : ex_object :=
  obj id 0x60012 [(0x1D7A, SU32 1); (0x1C1A, SVec [3; 0; 253; 255; 46; 0; 0; 216])] [].
Definition style_obj (id : N) (props : list (N * sval)) : ex_object := obj id 0x12004D props [].
(** A paragraph in style 240, with formats, run data and ink references. *)
Definition text_obj (id : N) (text : list N) (formats : list N) (runs : list (list (N * sval))) (inks : list N) : ex_object :=
  obj id 0x6000E
    ([(0x1D7A, SU32 1); (0x1E13, ids (N.of_nat (length formats))); (0x3458, ids (N.of_nat (length inks)));
      (0x342C, SObjectId); (0x1C22, utf16 text)]
     ++ match runs with [] => [] | _ => [(0x3499, SValues 1 runs)] end)
    (formats ++ inks ++ [240]).
Definition table_obj (id : N) (rows : list N) (cols : N) : ex_object :=
  obj id 0x60022 [(0x1D7A, SU32 1); (0x1C20, ids (N.of_nat (length rows)));
                  (0x1D57, SU32 (N.of_nat (length rows))); (0x1D58, SU32 cols)] rows.
Definition row_obj (id : N) (cells : list N) : ex_object :=
  obj id 0x60023 [(0x1C20, ids (N.of_nat (length cells)))] cells.
Definition cell_obj (id : N) (els : list N) : ex_object :=
  obj id 0x60024 [(0x1C20, ids (N.of_nat (length els))); (0x1C12, SVec [0; 0; 0; 0])] els.
Definition image_obj (id container : N) : ex_object := obj id 0x60011 [(0x1C3F, SObjectId)] [container].
Definition picture_obj (id : N) : ex_object := obj id 0x8003A [] [].
Definition file_obj (id container : N) (name : list N) : ex_object :=
  obj id 0x60035 [(0x1D7A, SU32 1); (0x1D9B, SObjectId); (0x1D9C, utf16 name)] [container].
Definition file_container_obj (id : N) : ex_object := obj id 0x80036 [] [].
Definition ink_obj (id data : N) : ex_object := obj id 0x60014 [(0x3415, SObjectId)] [data].
Definition ink_data_obj (id : N) (strokes : list N) : ex_object :=
  obj id 0x2003B [(0x3416, ids (N.of_nat (length strokes)))] strokes.
Definition stroke_obj (id props : N) (path : list N) : ex_object :=
  obj id 0x20047 [(0x340B, SVec path); (0x341C, SU8 1); (0x3409, SObjectId)] [props].
(** Dimensions: Y, another, X. *)
Definition dimension_bytes (g : N) : list N := guid_enc g ++ le_bytes 16 0.
Definition stroke_props_obj (id : N) (dims : list N) : ex_object :=
  obj id 0x120048 [(0x340D, SU32 0x3F800000); (0x340C, SU32 0x40000000); (0x340A, SVec (flat_map dimension_bytes dims))] [].

(** A page with a title, an outline (paragraph, list, group, table with a paragraph
    in a cell), an image, a file, ink and an object of a kind that is not shown. *)
Definition rich_objects : list ex_object :=
  [ page_meta_object; manifest_object; page_obj [204] [210; 220; 223; 230; 240];
    title_obj 204 [205]; outline_obj 205 [206]; element_obj 206 [] [207] []; text_obj 207 [84; 105] [] [] [];
    outline_obj 210 [211; 213]; element_obj 211 [214] [212; 215] [218]; text_obj 212 [72; 105] [241; 240] [] [];
    group_obj 213 [216]; element_obj 214 [] [] []; table_obj 215 [217] 1; element_obj 216 [] [207] [];
    row_obj 217 [219]; list_obj 218; cell_obj 219 [206; 214];
    image_obj 220 221; picture_obj 221; file_obj 223 224 [102]; file_container_obj 224;
    ink_obj 230 231; ink_data_obj 231 [232]; stroke_obj 232 233 [12; 2; 4; 6; 8; 10; 13];
    stroke_props_obj 233 [guid_y; 77; guid_x];
    style_obj 240 []; style_obj 241 [(0x1C04, SBool true)] ].
Definition rich_file : list N :=
  section_file (Some [78; 46; 111; 110; 101]) rich_objects [(221, 70); (224, 71)]
    [(70, [1; 2; 3]); (71, [9; 8])].
