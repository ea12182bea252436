(** Enumerated and packed values. *)
From Coq Require Import Lia ZifyBool ZifyNat ZifyN.
From Verif Require Import Base BaseProofs Codec Package PropSet PropIds Store Shapes Props Nodes Doc SpecValues.
Ltac Zify.zify_post_hook ::= Z.div_mod_to_equations.

Lemma existsb_In n l : existsb (N.eqb n) l = true -> In n l.
Proof. rewrite existsb_exists. intros (x & Hx & E). apply N.eqb_eq in E. now subst. Qed.

Ltac absent H :=
  match goal with |- ?f ?n = _ => unfold f end;
  match type of H with ~ In ?n _ =>
    destruct n as [|p];
    repeat (first [reflexivity
                  | match goal with p : positive |- _ => destruct p as [p|p|] end
                  | exfalso; apply H, existsb_In; vm_compute; reflexivity])
  end.
Ltac nodup_eq := repeat constructor; cbn; intuition discriminate.
Lemma present_all {A B} (f : N -> B) (ok : A -> B) table :
  Forall (fun p => f (fst p) = ok (snd p)) table -> forall n a, In (n, a) table -> f n = ok a.
Proof. rewrite Forall_forall. intros H n a Hin. exact (H _ Hin). Qed.
Ltac present := apply present_all; vm_compute; repeat constructor.
Ltac table_proof := split; [nodup_eq|]; split; [nodup_eq|]; split; [present|];
  let H := fresh in intros ? H; absent H.
Ltac member := repeat (first [now left | right]).
Ltac complete_proof := let a := fresh in intro a; vm_compute; destruct a; member.

Lemma charset_decodes : decodes charset_of Ok charset_table (Err MalformedOneNoteFileData) /\ complete charset_table.
Proof. split; [table_proof|complete_proof]. Qed.
Lemma alignment_decodes : decodes paragraph_alignment_of (fun a => a) alignment_table PaUnknown.
Proof. table_proof. Qed.
Lemma page_size_decodes : decodes page_size_of Ok page_size_table (Err MalformedOneNoteFileData) /\ complete page_size_table.
Proof. split; [table_proof|complete_proof]. Qed.
Lemma halign_decodes : decodes halign_of Ok halign_table (Err MalformedOneNoteFileData) /\ complete halign_table.
Proof. split; [table_proof|complete_proof]. Qed.
Lemma math_decodes : decodes math_object_type_of Some math_table None /\ complete math_table.
Proof. split; [table_proof|complete_proof]. Qed.
(** Used to tell shapes apart. *)
Definition shape_code (s : note_tag_shape) : N :=
  match s with
  | NTS_NoIcon => 0 | NTS_GreenCheckBox => 1 | NTS_YellowCheckBox => 2 | NTS_BlueCheckBox => 3
  | NTS_GreenStarCheckBox => 4 | NTS_YellowStarCheckBox => 5 | NTS_BlueStarCheckBox => 6 | NTS_GreenExclamationCheckBox => 7
  | NTS_YellowExclamationCheckBox => 8 | NTS_BlueExclamationCheckBox => 9 | NTS_GreenRightArrowCheckBox => 10 | NTS_YellowRightArrowCheckBox => 11
  | NTS_BlueRightArrowCheckBox => 12 | NTS_YellowStar => 13 | NTS_BlueFollowUpFlag => 14 | NTS_QuestionMark => 15
  | NTS_BlueRightArrow => 16 | NTS_HighPriority => 17 | NTS_ContactInformation => 18 | NTS_Meeting => 19
  | NTS_TimeSensitive => 20 | NTS_LightBulb => 21 | NTS_Pushpin => 22 | NTS_Home => 23
  | NTS_CommentBubble => 24 | NTS_SmilingFace => 25 | NTS_AwardRibbon => 26 | NTS_YellowKey => 27
  | NTS_BlueCheckBox1 => 28 | NTS_BlueCircle1 => 29 | NTS_BlueCheckBox2 => 30 | NTS_BlueCircle2 => 31
  | NTS_BlueCheckBox3 => 32 | NTS_BlueCircle3 => 33 | NTS_BlueEightPointStar => 34 | NTS_BlueCheckMark => 35
  | NTS_BlueCircle => 36 | NTS_BlueDownArrow => 37 | NTS_BlueLeftArrow => 38 | NTS_BlueSolidTarget => 39
  | NTS_BlueStar => 40 | NTS_BlueSun => 41 | NTS_BlueTarget => 42 | NTS_BlueTriangle => 43
  | NTS_BlueUmbrella => 44 | NTS_BlueUpArrow => 45 | NTS_BlueXWithDots => 46 | NTS_BlueX => 47
  | NTS_GreenCheckBox1 => 48 | NTS_GreenCircle1 => 49 | NTS_GreenCheckBox2 => 50 | NTS_GreenCircle2 => 51
  | NTS_GreenCheckBox3 => 52 | NTS_GreenCircle3 => 53 | NTS_GreenEightPointStar => 54 | NTS_GreenCheckMark => 55
  | NTS_GreenCircle => 56 | NTS_GreenDownArrow => 57 | NTS_GreenLeftArrow => 58 | NTS_GreenRightArrow => 59
  | NTS_GreenSolidArrow => 60 | NTS_GreenStar => 61 | NTS_GreenSun => 62 | NTS_GreenTarget => 63
  | NTS_GreenTriangle => 64 | NTS_GreenUmbrella => 65 | NTS_GreenUpArrow => 66 | NTS_GreenXWithDots => 67
  | NTS_GreenX => 68 | NTS_YellowCheckBox1 => 69 | NTS_YellowCircle1 => 70 | NTS_YellowCheckBox2 => 71
  | NTS_YellowCircle2 => 72 | NTS_YellowCheckBox3 => 73 | NTS_YellowCircle3 => 74 | NTS_YellowEightPointStar => 75
  | NTS_YellowCheckMark => 76 | NTS_YellowCircle => 77 | NTS_YellowDownArrow => 78 | NTS_YellowLeftArrow => 79
  | NTS_YellowRightArrow => 80 | NTS_YellowSolidTarget => 81 | NTS_YellowSun => 82 | NTS_YellowTarget => 83
  | NTS_YellowTriangle => 84 | NTS_YellowUmbrella => 85 | NTS_YellowUpArrow => 86 | NTS_YellowXWithDots => 87
  | NTS_YellowX => 88 | NTS_FollowUpTodayFlag => 89 | NTS_FollowUpTomorrowFlag => 90 | NTS_FollowUpThisWeekFlag => 91
  | NTS_FollowUpNextWeekFlag => 92 | NTS_NoFollowUpDateFlag => 93 | NTS_BluePersonCheckBox => 94 | NTS_YellowPersonCheckBox => 95
  | NTS_GreenPersonCheckBox => 96 | NTS_BlueFlagCheckBox => 97 | NTS_RedFlagCheckBox => 98 | NTS_GreenFlagCheckBox => 99
  | NTS_RedSquare => 100 | NTS_YellowSquare => 101 | NTS_BlueSquare => 102 | NTS_GreenSquare => 103
  | NTS_OrangeSquare => 104 | NTS_PinkSquare => 105 | NTS_EMailMessage => 106 | NTS_ClosedEnvelope => 107
  | NTS_OpenEnvelope => 108 | NTS_MobilePhone => 109 | NTS_TelephoneWithClock => 110 | NTS_QuestionBalloon => 111
  | NTS_PaperClip => 112 | NTS_FrowningFace => 113 | NTS_InstantMessagingContactPerson => 114 | NTS_PersonWithExclamationMark => 115
  | NTS_TwoPeople => 116 | NTS_ReminderBell => 117 | NTS_Contact => 118 | NTS_RoseOnAStem => 119
  | NTS_CalendarDateWithClock => 120 | NTS_MusicalNote => 121 | NTS_MovieClip => 122 | NTS_QuotationMark => 123
  | NTS_Globe => 124 | NTS_HyperlinkGlobe => 125 | NTS_Laptop => 126 | NTS_Plane => 127
  | NTS_Car => 128 | NTS_Binoculars => 129 | NTS_PresentationSlide => 130 | NTS_Padlock => 131
  | NTS_OpenBook => 132 | NTS_NotebookWithClock => 133 | NTS_BlankPaperWithLines => 134 | NTS_Research => 135
  | NTS_Pen => 136 | NTS_DollarSign => 137 | NTS_CoinsWithAWindowBackdrop => 138 | NTS_ScheduledTask => 139
  | NTS_LightningBolt => 140 | NTS_Cloud => 141 | NTS_Heart => 142 | NTS_Sunflower => 143
  end.

Lemma NoDup_code (l : list note_tag_shape) : NoDup (map shape_code l) -> NoDup l.
Proof. apply NoDup_map_inv. Qed.

Lemma coded_codes {A} (l : list A) : NoDup (map fst (coded l)).
Proof.
  unfold coded. replace (map fst _) with (map N.of_nat (seq 0 (length l))).
  - apply FinFun.Injective_map_NoDup; [|apply seq_NoDup]. intros a b. lia.
  - assert (H : length (map N.of_nat (seq 0 (length l))) = length l) by (rewrite map_length; apply seq_length).
    revert H. generalize (map N.of_nat (seq 0 (length l))) as ns. clear.
    induction l as [|a l IH]; intros [|n ns] H; try discriminate H; cbn; auto. f_equal. apply IH. now injection H.
Qed.

Lemma shape_decodes : decodes shape_parse Ok (coded shape_list) (Err MalformedOneNoteFileData) /\ complete (coded shape_list).
Proof.
  split; [|intro a; apply (nth_error_In _ (N.to_nat (shape_code a))); destruct a; reflexivity]. split; [|split; [|split]].
  - apply coded_codes.
  - apply NoDup_code. change (map shape_code _) with (map N.of_nat (seq 0 144)).
    apply FinFun.Injective_map_NoDup; [|apply seq_NoDup]. intros a b. lia.
  - present.
  - intros n H. absent H.
Qed.

(** ** Bits and bytes *)
Lemma bit_testbit v k : bit v k = N.testbit v k.
Proof.
  unfold bit. change 1 with (N.ones 1) at 1. rewrite N.land_ones.
  change (2 ^ 1) with 2. rewrite <- N.bit0_mod, N.shiftr_spec by lia. rewrite N.add_0_l.
  destruct (N.testbit v k); reflexivity.
Qed.
Lemma bit_land v k : N.land (N.shiftr v k) 1 = N.b2n (N.testbit v k).
Proof.
  change 1 with (N.ones 1) at 1. rewrite N.land_ones. change (2 ^ 1) with 2.
  rewrite <- N.bit0_mod, N.shiftr_spec by lia. now rewrite N.add_0_l.
Qed.
Lemma le_byte_div k v : le_byte k v = v / 2 ^ (8 * k) mod 256.
Proof. unfold le_byte. change 0xFF with (N.ones 8). rewrite N.land_ones, N.shiftr_div_pow2. reflexivity. Qed.

(** ** Readers *)
Lemma coded_u8 {A} (f : N -> res A) id (rd : object -> res (option A)) :
  (forall o, rd o = let! v := get_prop to_u8 id o in opt_map_res f v) ->
  reads_coded rd id VU8 f.
Proof.
  intros E o. rewrite E. unfold get_prop, stored. destruct (oprops_get id (ob_props o)) as [v|]; [|reflexivity].
  cbn [opt_map_res]. destruct v; try (right; split; [intros ? X; discriminate X|reflexivity]).
  left. exists n. split; [reflexivity|]. cbn. destruct (f n); reflexivity.
Qed.
Lemma coded_u16 {A} (f : N -> res A) id (rd : object -> res (option A)) :
  (forall o, rd o = let! v := get_prop to_u16 id o in opt_map_res f v) ->
  reads_coded rd id VU16 f.
Proof.
  intros E o. rewrite E. unfold get_prop, stored. destruct (oprops_get id (ob_props o)) as [v|]; [|reflexivity].
  cbn [opt_map_res]. destruct v; try (right; split; [intros ? X; discriminate X|reflexivity]).
  left. exists n. split; [reflexivity|]. cbn. destruct (f n); reflexivity.
Qed.
Lemma coded_u32 {A} (f : N -> res A) id (rd : object -> res (option A)) :
  (forall o, rd o = let! v := get_prop to_u32 id o in opt_map_res f v) ->
  reads_coded rd id VU32 f.
Proof.
  intros E o. rewrite E. unfold get_prop, stored. destruct (oprops_get id (ob_props o)) as [v|]; [|reflexivity].
  cbn [opt_map_res]. destruct v; try (right; split; [intros ? X; discriminate X|reflexivity]).
  left. exists n. split; [reflexivity|]. cbn. destruct (f n); reflexivity.
Qed.
Lemma rmap_coded {A} (g : N -> A) (r : res (option N)) :
  rmap g r = let! v := r in opt_map_res (fun n => Ok (g n)) v.
Proof. unfold rmap. destruct r as [[n|]| | |]; reflexivity. Qed.

(** ** Colors *)
Lemma color_read o id v : v < 2 ^ 32 -> stored o id = Some (VU32 v) ->
  exists c, color_parse id o = Ok (Some c) /\
    co_alpha c + v / 2 ^ 24 = 255 /\
    v = co_r c + 256 * (co_g c + 256 * (co_b c + 256 * (v / 2 ^ 24))) /\
    co_r c < 256 /\ co_g c < 256 /\ co_b c < 256 /\ co_alpha c < 256.
Proof.
  intros Hv Hs. unfold color_parse, get_prop. unfold stored in Hs. rewrite Hs.
  cbn [opt_map_res to_u32 ok_or rbind rmap option_map].
  eexists. split; [reflexivity|]. cbn [co_alpha co_r co_g co_b]. rewrite !le_byte_div.
  change (8 * 3) with 24. change (8 * 0) with 0. change (8 * 1) with 8. change (8 * 2) with 16.
  change (2 ^ 32) with 4294967296 in Hv. change (2 ^ 24) with 16777216. change (2 ^ 0) with 1.
  change (2 ^ 8) with 256. change (2 ^ 16) with 65536. lia.
Qed.

Lemma color_ref_read o id v : v < 2 ^ 32 -> stored o id = Some (VU32 v) ->
  color_ref_parse id o =
  if v / 2 ^ 24 =? 0 then Ok (Some (CrManual (v mod 256) (v / 256 mod 256) (v / 65536 mod 256)))
  else if v / 2 ^ 24 =? 255 then Ok (Some CrAuto) else Err MalformedOneNoteFileData.
Proof.
  intros Hv Hs. unfold color_ref_parse, get_prop. unfold stored in Hs. rewrite Hs.
  cbn [opt_map_res to_u32 ok_or rbind]. rewrite !le_byte_div.
  change (8 * 3) with 24. change (8 * 0) with 0. change (8 * 1) with 8. change (8 * 2) with 16.
  change (2 ^ 0) with 1. change (2 ^ 8) with 256. change (2 ^ 16) with 65536. rewrite N.div_1_r.
  assert (E : v / 2 ^ 24 mod 256 = v / 2 ^ 24) by (apply N.mod_small; apply N.div_lt_upper_bound; [discriminate|exact Hv]).
  rewrite E. clear E. set (q := v / 2 ^ 24).
  destruct (N.eqb_spec q 0) as [->|H0]; [reflexivity|].
  destruct (N.eqb_spec q 255) as [->|H1]; [reflexivity|].
  clearbody q. destruct q as [|p]; [tauto|].
  repeat (first [reflexivity | destruct p as [p|p|] | tauto]).
Qed.

(** ** Layout alignment *)
Lemma layout_read o id v : stored o id = Some (VU32 v) ->
  layout_alignment_parse id o =
  if N.testbit v 31 then Ok None
  else match halign_of (v mod 8) with
       | Ok h => Ok (Some (LayoutAlignment h (if N.testbit v 3 then HmLeft else HmRight)
                             (if N.testbit v 16 then VaTop else VaBottom)
                             (if N.testbit v 19 then VmTop else VmBottom)))
       | _ => Err MalformedOneNoteFileData
       end.
Proof.
  intros Hs. unfold layout_alignment_parse, get_prop. unfold stored in Hs. rewrite Hs.
  cbn [opt_map_res to_u32 ok_or rbind]. rewrite !bit_land.
  change 7 with (N.ones 3). rewrite N.land_ones. change (2 ^ 3) with 8.
  destruct (N.testbit v 31); [reflexivity|]. cbn [N.b2n N.eqb negb].
  destruct (halign_of (v mod 8)) as [h|e| |] eqn:E; cbn [rbind].
  - destruct (N.testbit v 3), (N.testbit v 16), (N.testbit v 19); reflexivity.
  - unfold halign_of in E. assert (X : v mod 8 < 8) by (apply N.mod_lt; discriminate).
    destruct (v mod 8) as [|p]; [discriminate E|].
    repeat (first [discriminate E | injection E as <-; reflexivity | destruct p as [p|p|]]).
  - unfold halign_of in E. destruct (v mod 8) as [|p]; [discriminate E|].
    repeat (first [discriminate E | destruct p as [p|p|]]).
  - unfold halign_of in E. destruct (v mod 8) as [|p]; [discriminate E|].
    repeat (first [discriminate E | destruct p as [p|p|]]).
Qed.

(** ** Status bits and numbers *)
Lemma item_type_spec n :
  (n <= 99 -> action_item_type_of n = AtNumeric n) /\
  (106 <= n -> action_item_type_of n = AtUnknown) /\
  map action_item_type_of [100; 101; 102; 103; 104; 105]
  = [AtDueToday; AtDueTomorrow; AtDueThisWeek; AtDueNextWeek; AtNoDueDate; AtCustomDueDate].
Proof.
  split; [|split; [|reflexivity]]; intro H; unfold action_item_type_of.
  - destruct (N.leb_spec n 99); [reflexivity|lia].
  - destruct (N.leb_spec n 99); [lia|]. destruct n as [|p]; [lia|].
    repeat (first [reflexivity | lia | destruct p as [p|p|]]).
Qed.

Lemma role_spec x r :
  role_parse x = Ok r <-> eg_guid x = 0x4A3717F81C1449E7952681D942DE1741 /\ In (eg_value x, r) role_table.
Proof.
  unfold role_parse. destruct (N.eqb_spec (eg_guid x) 0x4A3717F81C1449E7952681D942DE1741) as [E|E]; cbn [negb].
  - split.
    + intro H. split; [exact E|]. destruct (eg_value x) as [|p]; [discriminate H|].
      repeat (first [discriminate H | injection H as <-; vm_compute; tauto | destruct p as [p|p|]]).
    + intros [_ H]. repeat (destruct H as [H|H]; [injection H as <- <-; reflexivity|]). destruct H.
  - split; [discriminate|tauto].
Qed.
Lemma role_error x : (forall r, role_parse x <> Ok r) -> role_parse x = Err MalformedOneStoreData.
Proof.
  unfold role_parse. destruct (N.eqb_spec (eg_guid x) 0x4A3717F81C1449E7952681D942DE1741); cbn [negb]; [|reflexivity].
  destruct (eg_value x) as [|p]; [reflexivity|].
  intro H. repeat (first [reflexivity | destruct p as [p|p|] | now edestruct H]).
Qed.

Lemma checkable_spec s : shape_is_checkable s = true <-> In s checkable_list.
Proof.
  split.
  - intro H. assert (E : existsb (fun x => shape_code s =? shape_code x) checkable_list = true)
      by (destruct s; first [discriminate H | reflexivity]).
    apply existsb_exists in E as (x & Hx & E). apply N.eqb_eq in E.
    assert (I : forall a b, shape_code a = shape_code b -> a = b).
    { intros a b Hab. assert (Some a = Some b); [|congruence].
      transitivity (nth_error shape_list (N.to_nat (shape_code a))); [destruct a; reflexivity|].
      rewrite Hab. destruct b; reflexivity. }
    now rewrite (I _ _ E).
  - intro H. assert (F : forallb shape_is_checkable checkable_list = true) by reflexivity.
    rewrite forallb_forall in F. now apply F.
Qed.

Lemma change_frequency_spec n : change_frequency n = if n <? 5 then Ok n else Err MalformedFssHttpBData.
Proof. unfold change_frequency. destruct (N.leb_spec n 4), (N.ltb_spec n 5); auto; lia. Qed.

Lemma item_status_read : reads_coded action_item_status_parse 0x10003470 VU16 (fun n =>
  Ok (ActionItemStatus (N.testbit n 0) (N.testbit n 1) (N.testbit n 2))).
Proof.
  apply coded_u16. intro o. unfold action_item_status_parse. rewrite rmap_coded.
  change P_ActionItemStatus with 0x10003470.
  destruct (get_prop to_u16 0x10003470 o) as [[n|]| | |]; try reflexivity.
  cbn [rbind opt_map_res]. now rewrite !bit_testbit.
Qed.

Lemma tag_status_read : reads_coded note_tag_status_parse 0x14003467 VU32 (fun n =>
  Ok (NoteTagStatus (N.testbit n 0) (N.testbit n 1) (N.testbit n 2) (N.testbit n 3) (N.testbit n 6)
        (N.testbit n 7) (N.testbit n 8) (N.testbit n 9) (N.testbit n 10) (N.testbit n 11))).
Proof.
  apply coded_u32. intro o. unfold note_tag_status_parse. rewrite rmap_coded.
  change P_NoteTagPropertyStatus with 0x14003467.
  destruct (get_prop to_u32 0x14003467 o) as [[n|]| | |]; try reflexivity.
  cbn [rbind opt_map_res]. now rewrite !bit_testbit.
Qed.
