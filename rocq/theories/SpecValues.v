(** Independent description of the values of enumerated and packed properties
    ([MS-ONE] 2.2 and 2.3): tables of codes and bit positions. *)
From Verif Require Import Base PropSet PropIds Store Package Shapes Props Nodes Doc.

(** The value an object stores for a property, if any (see C19). *)
Definition stored (o : object) (id : N) : option pvalue := oprops_get id (ob_props o).

(** [f] decodes the codes of the table to its members and gives [other] for every
    other number. The table lists every member once. *)
Definition decodes {A B} (f : N -> B) (ok : A -> B) (table : list (N * A)) (other : B) : Prop :=
  NoDup (map fst table) /\ NoDup (map snd table) /\
  (forall n a, In (n, a) table -> f n = ok a) /\
  (forall n, ~ In n (map fst table) -> f n = other).
Definition complete {A} (table : list (N * A)) : Prop := forall a, In a (map snd table).

(** A reader of property [id] of wire type [wire] whose values [f] decodes. *)
Definition reads_coded {A} (rd : object -> res (option A)) (id : N) (wire : N -> pvalue)
           (f : N -> res A) : Prop := forall o,
  match stored o id with
  | None => rd o = Ok None
  | Some v => (exists n, v = wire n /\
                 rd o = match f n with Ok a => Ok (Some a) | Err e => Err e
                                     | Panic => Panic | OutOfFuel => OutOfFuel end) \/
              ((forall n, v <> wire n) /\ rd o = Err MalformedOneNoteFileData)
  end.

(** [MS-ONE] 2.3.55 *)
Definition charset_table : list (N * charset) :=
  [(0, CsAnsi); (1, CsDefault); (2, CsSymbol); (77, CsMac); (128, CsShiftJis); (129, CsHangul);
   (130, CsJohab); (134, CsGb2312); (136, CsChineseBig5); (161, CsGreek); (162, CsTurkish);
   (163, CsVietnamese); (177, CsHebrew); (178, CsArabic); (186, CsBaltic); (204, CsRussian);
   (222, CsThai); (238, CsEastEurope); (255, CsOem)].
(** [MS-ONE] 2.3.94; other values are reported as unknown. *)
Definition alignment_table : list (N * paragraph_alignment) :=
  [(0, PaLeft); (1, PaCenter); (2, PaRight)].
(** [MS-ONE] 2.3.36 *)
Definition page_size_table : list (N * page_size) :=
  [(0, PsAuto); (1, PsUs); (2, PsAnsiLetter); (3, PsAnsiTabloid); (4, PsUsLegal); (5, PsIsoA3);
   (6, PsIsoA4); (7, PsIsoA5); (8, PsIsoA6); (9, PsJisB4); (10, PsJisB5); (11, PsJisB6);
   (12, PsJapanesePostcard); (13, PsIndexCard); (14, PsBillfold); (15, PsCustom)].
(** [MS-ONE] 2.3.46 *)
Definition halign_table : list (N * halign) :=
  [(0, HaUnknown); (1, HaLeft); (2, HaCenter); (3, HaRight); (4, HaBiDiNormal); (5, HaBiDiReverse)].
(** [MS-ONESTORE] 2.1.12, the value of a root id. *)
Definition role_table : list (N * role) :=
  [(1, DefaultContent); (2, MetadataRole); (3, EncryptionKey); (4, VersionMetadata)].
(** The inline math object types. *)
Definition math_table : list (N * math_object_type) :=
  [(0, MtSimpleText); (10, MtAccent); (11, MtBox); (12, MtBoxedFormula); (13, MtBrackets);
    (14, MtBracketsWithSeps); (15, MtEquationArray); (16, MtFraction); (17, MtFunctionApply);
    (18, MtLeftSubSup); (19, MtLowerLimit); (20, MtMatrix); (21, MtNary); (22, MtOpChar);
    (23, MtOverbar); (24, MtPhantom); (25, MtRadical); (26, MtSlashedFraction); (27, MtStack);
    (28, MtStretchStack); (29, MtSubscript); (30, MtSubSup); (31, MtSuperscript); (32, MtUnderbar);
    (33, MtUpperLimit); (0x90000000, MtPlainText)].
(** [MS-ONE] 2.3.85: the shapes in the order of their codes, from 0. *)
Definition shape_list : list note_tag_shape :=
  [NTS_NoIcon; NTS_GreenCheckBox; NTS_YellowCheckBox; NTS_BlueCheckBox; NTS_GreenStarCheckBox;
    NTS_YellowStarCheckBox; NTS_BlueStarCheckBox; NTS_GreenExclamationCheckBox;
    NTS_YellowExclamationCheckBox; NTS_BlueExclamationCheckBox; NTS_GreenRightArrowCheckBox;
    NTS_YellowRightArrowCheckBox; NTS_BlueRightArrowCheckBox; NTS_YellowStar; NTS_BlueFollowUpFlag;
    NTS_QuestionMark; NTS_BlueRightArrow; NTS_HighPriority; NTS_ContactInformation; NTS_Meeting;
    NTS_TimeSensitive; NTS_LightBulb; NTS_Pushpin; NTS_Home; NTS_CommentBubble; NTS_SmilingFace;
    NTS_AwardRibbon; NTS_YellowKey; NTS_BlueCheckBox1; NTS_BlueCircle1; NTS_BlueCheckBox2;
    NTS_BlueCircle2; NTS_BlueCheckBox3; NTS_BlueCircle3; NTS_BlueEightPointStar; NTS_BlueCheckMark;
    NTS_BlueCircle; NTS_BlueDownArrow; NTS_BlueLeftArrow; NTS_BlueSolidTarget; NTS_BlueStar;
    NTS_BlueSun; NTS_BlueTarget; NTS_BlueTriangle; NTS_BlueUmbrella; NTS_BlueUpArrow;
    NTS_BlueXWithDots; NTS_BlueX; NTS_GreenCheckBox1; NTS_GreenCircle1; NTS_GreenCheckBox2;
    NTS_GreenCircle2; NTS_GreenCheckBox3; NTS_GreenCircle3; NTS_GreenEightPointStar;
    NTS_GreenCheckMark; NTS_GreenCircle; NTS_GreenDownArrow; NTS_GreenLeftArrow;
    NTS_GreenRightArrow; NTS_GreenSolidArrow; NTS_GreenStar; NTS_GreenSun; NTS_GreenTarget;
    NTS_GreenTriangle; NTS_GreenUmbrella; NTS_GreenUpArrow; NTS_GreenXWithDots; NTS_GreenX;
    NTS_YellowCheckBox1; NTS_YellowCircle1; NTS_YellowCheckBox2; NTS_YellowCircle2;
    NTS_YellowCheckBox3; NTS_YellowCircle3; NTS_YellowEightPointStar; NTS_YellowCheckMark;
    NTS_YellowCircle; NTS_YellowDownArrow; NTS_YellowLeftArrow; NTS_YellowRightArrow;
    NTS_YellowSolidTarget; NTS_YellowSun; NTS_YellowTarget; NTS_YellowTriangle; NTS_YellowUmbrella;
    NTS_YellowUpArrow; NTS_YellowXWithDots; NTS_YellowX; NTS_FollowUpTodayFlag;
    NTS_FollowUpTomorrowFlag; NTS_FollowUpThisWeekFlag; NTS_FollowUpNextWeekFlag;
    NTS_NoFollowUpDateFlag; NTS_BluePersonCheckBox; NTS_YellowPersonCheckBox;
    NTS_GreenPersonCheckBox; NTS_BlueFlagCheckBox; NTS_RedFlagCheckBox; NTS_GreenFlagCheckBox;
    NTS_RedSquare; NTS_YellowSquare; NTS_BlueSquare; NTS_GreenSquare; NTS_OrangeSquare;
    NTS_PinkSquare; NTS_EMailMessage; NTS_ClosedEnvelope; NTS_OpenEnvelope; NTS_MobilePhone;
    NTS_TelephoneWithClock; NTS_QuestionBalloon; NTS_PaperClip; NTS_FrowningFace;
    NTS_InstantMessagingContactPerson; NTS_PersonWithExclamationMark; NTS_TwoPeople;
    NTS_ReminderBell; NTS_Contact; NTS_RoseOnAStem; NTS_CalendarDateWithClock; NTS_MusicalNote;
    NTS_MovieClip; NTS_QuotationMark; NTS_Globe; NTS_HyperlinkGlobe; NTS_Laptop; NTS_Plane; NTS_Car;
    NTS_Binoculars; NTS_PresentationSlide; NTS_Padlock; NTS_OpenBook; NTS_NotebookWithClock;
    NTS_BlankPaperWithLines; NTS_Research; NTS_Pen; NTS_DollarSign; NTS_CoinsWithAWindowBackdrop;
    NTS_ScheduledTask; NTS_LightningBolt; NTS_Cloud; NTS_Heart; NTS_Sunflower].
(** The shapes that a user can tick off: the check boxes and the follow-up flags. *)
Definition checkable_list : list note_tag_shape :=
  [NTS_GreenCheckBox; NTS_YellowCheckBox; NTS_BlueCheckBox; NTS_GreenStarCheckBox;
    NTS_YellowStarCheckBox; NTS_BlueStarCheckBox; NTS_GreenExclamationCheckBox;
    NTS_YellowExclamationCheckBox; NTS_BlueExclamationCheckBox; NTS_GreenRightArrowCheckBox;
    NTS_YellowRightArrowCheckBox; NTS_BlueRightArrowCheckBox; NTS_BlueCheckBox1; NTS_BlueCheckBox2;
    NTS_BlueCheckBox3; NTS_GreenCheckBox1; NTS_GreenCheckBox2; NTS_GreenCheckBox3;
    NTS_YellowCheckBox1; NTS_YellowCheckBox2; NTS_YellowCheckBox3; NTS_BluePersonCheckBox;
    NTS_YellowPersonCheckBox; NTS_GreenPersonCheckBox; NTS_BlueFlagCheckBox; NTS_RedFlagCheckBox;
    NTS_GreenFlagCheckBox; NTS_FollowUpTodayFlag; NTS_FollowUpTomorrowFlag;
    NTS_FollowUpThisWeekFlag; NTS_FollowUpNextWeekFlag; NTS_NoFollowUpDateFlag].
(** A list as a table of codes. *)
Definition coded {A} (l : list A) : list (N * A) := combine (map N.of_nat (seq 0 (length l))) l.
