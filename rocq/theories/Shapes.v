(** Note tag shapes. Models /repo/src/one/property/note_tag_shape.rs. Generated from
    the source text, one line of the source per line here. *)
From Verif Require Import Base.

(** /repo/src/one/property/note_tag_shape.rs:10-155 *)
Inductive note_tag_shape :=
| NTS_NoIcon
| NTS_GreenCheckBox
| NTS_YellowCheckBox
| NTS_BlueCheckBox
| NTS_GreenStarCheckBox
| NTS_YellowStarCheckBox
| NTS_BlueStarCheckBox
| NTS_GreenExclamationCheckBox
| NTS_YellowExclamationCheckBox
| NTS_BlueExclamationCheckBox
| NTS_GreenRightArrowCheckBox
| NTS_YellowRightArrowCheckBox
| NTS_BlueRightArrowCheckBox
| NTS_YellowStar
| NTS_BlueFollowUpFlag
| NTS_QuestionMark
| NTS_BlueRightArrow
| NTS_HighPriority
| NTS_ContactInformation
| NTS_Meeting
| NTS_TimeSensitive
| NTS_LightBulb
| NTS_Pushpin
| NTS_Home
| NTS_CommentBubble
| NTS_SmilingFace
| NTS_AwardRibbon
| NTS_YellowKey
| NTS_BlueCheckBox1
| NTS_BlueCircle1
| NTS_BlueCheckBox2
| NTS_BlueCircle2
| NTS_BlueCheckBox3
| NTS_BlueCircle3
| NTS_BlueEightPointStar
| NTS_BlueCheckMark
| NTS_BlueCircle
| NTS_BlueDownArrow
| NTS_BlueLeftArrow
| NTS_BlueSolidTarget
| NTS_BlueStar
| NTS_BlueSun
| NTS_BlueTarget
| NTS_BlueTriangle
| NTS_BlueUmbrella
| NTS_BlueUpArrow
| NTS_BlueXWithDots
| NTS_BlueX
| NTS_GreenCheckBox1
| NTS_GreenCircle1
| NTS_GreenCheckBox2
| NTS_GreenCircle2
| NTS_GreenCheckBox3
| NTS_GreenCircle3
| NTS_GreenEightPointStar
| NTS_GreenCheckMark
| NTS_GreenCircle
| NTS_GreenDownArrow
| NTS_GreenLeftArrow
| NTS_GreenRightArrow
| NTS_GreenSolidArrow
| NTS_GreenStar
| NTS_GreenSun
| NTS_GreenTarget
| NTS_GreenTriangle
| NTS_GreenUmbrella
| NTS_GreenUpArrow
| NTS_GreenXWithDots
| NTS_GreenX
| NTS_YellowCheckBox1
| NTS_YellowCircle1
| NTS_YellowCheckBox2
| NTS_YellowCircle2
| NTS_YellowCheckBox3
| NTS_YellowCircle3
| NTS_YellowEightPointStar
| NTS_YellowCheckMark
| NTS_YellowCircle
| NTS_YellowDownArrow
| NTS_YellowLeftArrow
| NTS_YellowRightArrow
| NTS_YellowSolidTarget
| NTS_YellowSun
| NTS_YellowTarget
| NTS_YellowTriangle
| NTS_YellowUmbrella
| NTS_YellowUpArrow
| NTS_YellowXWithDots
| NTS_YellowX
| NTS_FollowUpTodayFlag
| NTS_FollowUpTomorrowFlag
| NTS_FollowUpThisWeekFlag
| NTS_FollowUpNextWeekFlag
| NTS_NoFollowUpDateFlag
| NTS_BluePersonCheckBox
| NTS_YellowPersonCheckBox
| NTS_GreenPersonCheckBox
| NTS_BlueFlagCheckBox
| NTS_RedFlagCheckBox
| NTS_GreenFlagCheckBox
| NTS_RedSquare
| NTS_YellowSquare
| NTS_BlueSquare
| NTS_GreenSquare
| NTS_OrangeSquare
| NTS_PinkSquare
| NTS_EMailMessage
| NTS_ClosedEnvelope
| NTS_OpenEnvelope
| NTS_MobilePhone
| NTS_TelephoneWithClock
| NTS_QuestionBalloon
| NTS_PaperClip
| NTS_FrowningFace
| NTS_InstantMessagingContactPerson
| NTS_PersonWithExclamationMark
| NTS_TwoPeople
| NTS_ReminderBell
| NTS_Contact
| NTS_RoseOnAStem
| NTS_CalendarDateWithClock
| NTS_MusicalNote
| NTS_MovieClip
| NTS_QuotationMark
| NTS_Globe
| NTS_HyperlinkGlobe
| NTS_Laptop
| NTS_Plane
| NTS_Car
| NTS_Binoculars
| NTS_PresentationSlide
| NTS_Padlock
| NTS_OpenBook
| NTS_NotebookWithClock
| NTS_BlankPaperWithLines
| NTS_Research
| NTS_Pen
| NTS_DollarSign
| NTS_CoinsWithAWindowBackdrop
| NTS_ScheduledTask
| NTS_LightningBolt
| NTS_Cloud
| NTS_Heart
| NTS_Sunflower.

(** /repo/src/one/property/note_tag_shape.rs:158-313, [NoteTagShape::parse] *)
Definition shape_parse (value : N) : res note_tag_shape :=
  match value with
  | 0 => Ok NTS_NoIcon
  | 1 => Ok NTS_GreenCheckBox
  | 2 => Ok NTS_YellowCheckBox
  | 3 => Ok NTS_BlueCheckBox
  | 4 => Ok NTS_GreenStarCheckBox
  | 5 => Ok NTS_YellowStarCheckBox
  | 6 => Ok NTS_BlueStarCheckBox
  | 7 => Ok NTS_GreenExclamationCheckBox
  | 8 => Ok NTS_YellowExclamationCheckBox
  | 9 => Ok NTS_BlueExclamationCheckBox
  | 10 => Ok NTS_GreenRightArrowCheckBox
  | 11 => Ok NTS_YellowRightArrowCheckBox
  | 12 => Ok NTS_BlueRightArrowCheckBox
  | 13 => Ok NTS_YellowStar
  | 14 => Ok NTS_BlueFollowUpFlag
  | 15 => Ok NTS_QuestionMark
  | 16 => Ok NTS_BlueRightArrow
  | 17 => Ok NTS_HighPriority
  | 18 => Ok NTS_ContactInformation
  | 19 => Ok NTS_Meeting
  | 20 => Ok NTS_TimeSensitive
  | 21 => Ok NTS_LightBulb
  | 22 => Ok NTS_Pushpin
  | 23 => Ok NTS_Home
  | 24 => Ok NTS_CommentBubble
  | 25 => Ok NTS_SmilingFace
  | 26 => Ok NTS_AwardRibbon
  | 27 => Ok NTS_YellowKey
  | 28 => Ok NTS_BlueCheckBox1
  | 29 => Ok NTS_BlueCircle1
  | 30 => Ok NTS_BlueCheckBox2
  | 31 => Ok NTS_BlueCircle2
  | 32 => Ok NTS_BlueCheckBox3
  | 33 => Ok NTS_BlueCircle3
  | 34 => Ok NTS_BlueEightPointStar
  | 35 => Ok NTS_BlueCheckMark
  | 36 => Ok NTS_BlueCircle
  | 37 => Ok NTS_BlueDownArrow
  | 38 => Ok NTS_BlueLeftArrow
  | 39 => Ok NTS_BlueSolidTarget
  | 40 => Ok NTS_BlueStar
  | 41 => Ok NTS_BlueSun
  | 42 => Ok NTS_BlueTarget
  | 43 => Ok NTS_BlueTriangle
  | 44 => Ok NTS_BlueUmbrella
  | 45 => Ok NTS_BlueUpArrow
  | 46 => Ok NTS_BlueXWithDots
  | 47 => Ok NTS_BlueX
  | 48 => Ok NTS_GreenCheckBox1
  | 49 => Ok NTS_GreenCircle1
  | 50 => Ok NTS_GreenCheckBox2
  | 51 => Ok NTS_GreenCircle2
  | 52 => Ok NTS_GreenCheckBox3
  | 53 => Ok NTS_GreenCircle3
  | 54 => Ok NTS_GreenEightPointStar
  | 55 => Ok NTS_GreenCheckMark
  | 56 => Ok NTS_GreenCircle
  | 57 => Ok NTS_GreenDownArrow
  | 58 => Ok NTS_GreenLeftArrow
  | 59 => Ok NTS_GreenRightArrow
  | 60 => Ok NTS_GreenSolidArrow
  | 61 => Ok NTS_GreenStar
  | 62 => Ok NTS_GreenSun
  | 63 => Ok NTS_GreenTarget
  | 64 => Ok NTS_GreenTriangle
  | 65 => Ok NTS_GreenUmbrella
  | 66 => Ok NTS_GreenUpArrow
  | 67 => Ok NTS_GreenXWithDots
  | 68 => Ok NTS_GreenX
  | 69 => Ok NTS_YellowCheckBox1
  | 70 => Ok NTS_YellowCircle1
  | 71 => Ok NTS_YellowCheckBox2
  | 72 => Ok NTS_YellowCircle2
  | 73 => Ok NTS_YellowCheckBox3
  | 74 => Ok NTS_YellowCircle3
  | 75 => Ok NTS_YellowEightPointStar
  | 76 => Ok NTS_YellowCheckMark
  | 77 => Ok NTS_YellowCircle
  | 78 => Ok NTS_YellowDownArrow
  | 79 => Ok NTS_YellowLeftArrow
  | 80 => Ok NTS_YellowRightArrow
  | 81 => Ok NTS_YellowSolidTarget
  | 82 => Ok NTS_YellowSun
  | 83 => Ok NTS_YellowTarget
  | 84 => Ok NTS_YellowTriangle
  | 85 => Ok NTS_YellowUmbrella
  | 86 => Ok NTS_YellowUpArrow
  | 87 => Ok NTS_YellowXWithDots
  | 88 => Ok NTS_YellowX
  | 89 => Ok NTS_FollowUpTodayFlag
  | 90 => Ok NTS_FollowUpTomorrowFlag
  | 91 => Ok NTS_FollowUpThisWeekFlag
  | 92 => Ok NTS_FollowUpNextWeekFlag
  | 93 => Ok NTS_NoFollowUpDateFlag
  | 94 => Ok NTS_BluePersonCheckBox
  | 95 => Ok NTS_YellowPersonCheckBox
  | 96 => Ok NTS_GreenPersonCheckBox
  | 97 => Ok NTS_BlueFlagCheckBox
  | 98 => Ok NTS_RedFlagCheckBox
  | 99 => Ok NTS_GreenFlagCheckBox
  | 100 => Ok NTS_RedSquare
  | 101 => Ok NTS_YellowSquare
  | 102 => Ok NTS_BlueSquare
  | 103 => Ok NTS_GreenSquare
  | 104 => Ok NTS_OrangeSquare
  | 105 => Ok NTS_PinkSquare
  | 106 => Ok NTS_EMailMessage
  | 107 => Ok NTS_ClosedEnvelope
  | 108 => Ok NTS_OpenEnvelope
  | 109 => Ok NTS_MobilePhone
  | 110 => Ok NTS_TelephoneWithClock
  | 111 => Ok NTS_QuestionBalloon
  | 112 => Ok NTS_PaperClip
  | 113 => Ok NTS_FrowningFace
  | 114 => Ok NTS_InstantMessagingContactPerson
  | 115 => Ok NTS_PersonWithExclamationMark
  | 116 => Ok NTS_TwoPeople
  | 117 => Ok NTS_ReminderBell
  | 118 => Ok NTS_Contact
  | 119 => Ok NTS_RoseOnAStem
  | 120 => Ok NTS_CalendarDateWithClock
  | 121 => Ok NTS_MusicalNote
  | 122 => Ok NTS_MovieClip
  | 123 => Ok NTS_QuotationMark
  | 124 => Ok NTS_Globe
  | 125 => Ok NTS_HyperlinkGlobe
  | 126 => Ok NTS_Laptop
  | 127 => Ok NTS_Plane
  | 128 => Ok NTS_Car
  | 129 => Ok NTS_Binoculars
  | 130 => Ok NTS_PresentationSlide
  | 131 => Ok NTS_Padlock
  | 132 => Ok NTS_OpenBook
  | 133 => Ok NTS_NotebookWithClock
  | 134 => Ok NTS_BlankPaperWithLines
  | 135 => Ok NTS_Research
  | 136 => Ok NTS_Pen
  | 137 => Ok NTS_DollarSign
  | 138 => Ok NTS_CoinsWithAWindowBackdrop
  | 139 => Ok NTS_ScheduledTask
  | 140 => Ok NTS_LightningBolt
  | 141 => Ok NTS_Cloud
  | 142 => Ok NTS_Heart
  | 143 => Ok NTS_Sunflower
  | _ => Err MalformedOneNoteFileData
  end.

(** /repo/src/one/property/note_tag_shape.rs:316-352, [NoteTagShape::is_checkable] *)
Definition shape_is_checkable (s : note_tag_shape) : bool :=
  match s with
  | NTS_GreenCheckBox
  | NTS_YellowCheckBox
  | NTS_BlueCheckBox
  | NTS_GreenStarCheckBox
  | NTS_YellowStarCheckBox
  | NTS_BlueStarCheckBox
  | NTS_GreenExclamationCheckBox
  | NTS_YellowExclamationCheckBox
  | NTS_BlueExclamationCheckBox
  | NTS_GreenRightArrowCheckBox
  | NTS_YellowRightArrowCheckBox
  | NTS_BlueRightArrowCheckBox
  | NTS_BlueCheckBox1
  | NTS_BlueCheckBox2
  | NTS_BlueCheckBox3
  | NTS_GreenCheckBox1
  | NTS_GreenCheckBox2
  | NTS_GreenCheckBox3
  | NTS_YellowCheckBox1
  | NTS_YellowCheckBox2
  | NTS_YellowCheckBox3
  | NTS_FollowUpTodayFlag
  | NTS_FollowUpTomorrowFlag
  | NTS_FollowUpThisWeekFlag
  | NTS_FollowUpNextWeekFlag
  | NTS_NoFollowUpDateFlag
  | NTS_BluePersonCheckBox
  | NTS_YellowPersonCheckBox
  | NTS_GreenPersonCheckBox
  | NTS_BlueFlagCheckBox
  | NTS_RedFlagCheckBox
  | NTS_GreenFlagCheckBox => true
  | _ => false
  end.
