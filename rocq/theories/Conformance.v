(** Tests of the model against the repository's own sample files. They are not
    proofs of any property; they are evidence that the model computes what the
    program computes. *)
From Verif Require Import Base Codec Package PropSet Store Shapes Props Nodes Doc Notebook SampleFiles PropertiesStore.

Definition sample_name : name := [78; 101; 119; 32; 83; 101; 99; 116; 105; 111; 110; 32; 51; 46; 111; 110; 101]. (* New Section 3.one *)

(** /repo/tests/snapshots/lib__parse_section_new.snap, the recorded output of the
    program for this file, as a value of the model: written by a script that reads the
    snapshot, not from the model's output. Numbers with a decimal point stand as the
    bits of the f32. The snapshot is older than the field for inline mathematics,
    which is empty here. *)
Definition snapshot : section :=
  (Section_ [78;101;119;32;83;101;99;116;105;111;110;32;51] [[(Page (Some (Title [(Outline 1 None [1056964608;
  0;
  1061158912;
  1061158912] (Some (LayoutAlignment HaUnknown HmRight VaBottom VmBottom)) (Some (LayoutAlignment HaBiDiNormal HmLeft VaBottom VmBottom)) (Some
  1058642330) None None (Some 1083179008) false None None [(ItemElement (OutlineElement [(CoRichText (RichText [] [(Styling (Some CsAnsi) false false
  false false false false None None None None None None None None None None (Some 1031) false false)] [] (Styling None false false false false false
  false (Some [65;114;105;97;108]) (Some 40) (Some CrAuto) (Some CrAuto) None (Some [80;97;103;101;84;105;116;108;101]) None (Some 0) (Some 0) (Some
  0) None false false) 0 0 None PaLeft None None [] [] []))] [] None 1 []))]);
  (Outline 1 None [1056964608;
  0;
  1061158912;
  1061158912] (Some (LayoutAlignment HaUnknown HmRight VaBottom VmBottom)) (Some (LayoutAlignment HaBiDiNormal HmLeft VaBottom VmBottom)) (Some
  1058642330) None None None false None None [(ItemElement (OutlineElement [(CoRichText (RichText
  [83;117;110;100;97;121;44;32;50;56;46;32;68;101;99;101;109;98;101;114;32;50;48;50;53] [(Styling (Some CsAnsi) false false false false false false
  None None None None None None None None None None (Some 4096) false false)] [] (Styling None false false false false false false (Some
  [67;97;108;105;98;114;105]) (Some 20) (Some (CrManual 118 118 118)) (Some CrAuto) None (Some [80;97;103;101;68;97;116;101;84;105;109;101]) None
  (Some 0) (Some 0) (Some 0) None false false) 0 0 None PaLeft (Some (LayoutAlignment HaLeft HmRight VaBottom VmBottom)) (Some (LayoutAlignment
  HaBiDiNormal HmLeft VaBottom VmBottom)) [] [] []))] [] None 1 []));
  (ItemElement (OutlineElement [(CoRichText (RichText [49;51;58;53;56] [(Styling (Some CsAnsi) false false false false false false None None None None
  None None None None None None (Some 4096) false false)] [] (Styling None false false false false false false (Some [67;97;108;105;98;114;105]) (Some
  20) (Some (CrManual 118 118 118)) (Some CrAuto) None (Some [80;97;103;101;68;97;116;101;84;105;109;101]) None (Some 0) (Some 0) (Some 0) None false
  false) 0 0 None PaLeft (Some (LayoutAlignment HaLeft HmRight VaBottom VmBottom)) (Some (LayoutAlignment HaBiDiNormal HmLeft VaBottom VmBottom)) []
  [] []))] [] None 1 []))])] 0 0 (Some (LayoutAlignment HaBiDiNormal HmLeft VaTop VmTop)) (Some (LayoutAlignment HaUnknown HmRight VaBottom
  VmBottom)))) 1%Z (Some [84;104;101;114;101;115;97;32;83;105;101;109;101;110;115]) (Some 1101922304) [])]] (Some (Color 255 180 158 222))).
Example snapshot_agrees : parse_section_buffer order_id 8 sample_section sample_name = Ok snapshot.
Proof. vm_compute. reflexivity. Qed.

(** The table of contents beside it: its kind, the names of its entries and its colour. *)
Example toc_agrees : exists st, open_store order_id 8 sample_toc = Ok st /\ st_schema st = toc_schema /\
  parse_toc 8 (st_data_root st) =
  Ok ([[78; 101; 119; 32; 83; 101; 99; 116; 105; 111; 110; 32; 49; 32; 50; 46; 111; 110; 101] (* New Section 1 2.one *);
       [78; 101; 119; 32; 83; 101; 99; 116; 105; 111; 110; 32; 50; 46; 111; 110; 101] (* New Section 2.one *);
       [78; 101; 119; 32; 83; 101; 99; 116; 105; 111; 110; 32; 51; 46; 111; 110; 101] (* New Section 3.one *);
       [78; 101; 119; 32; 83; 101; 99; 116; 105; 111; 110; 32; 71; 114; 111; 117; 112] (* New Section Group *);
       [79; 110; 101; 78; 111; 116; 101; 95; 82; 101; 99; 121; 99; 108; 101; 66; 105; 110] (* OneNote_RecycleBin *)],
      Some (Color 255 155 187 210)).
Proof.
  destruct (open_store order_id 8 sample_toc) as [st| | |] eqn:E; [|exfalso; revert E; vm_compute; discriminate..].
  exists st. split; [reflexivity|]. vm_compute in E. injection E as <-. split; vm_compute; reflexivity.
Qed.
