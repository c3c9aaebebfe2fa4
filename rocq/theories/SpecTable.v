(* GENERATED by tools/gen_types.py from /repo/src/specification.rs. Do not edit. *)
From Coq Require Import String List NArith.
From Verif Require Import Types.
Import ListNotations.
Open Scope string_scope.

(* specification.rs:12-16  enum AcceptedData *)
Inductive AcceptedData : Set :=
  | AcceptElementType (t : ElementType)
  | AcceptElementGroup (g : ElementGroup).

(* specification.rs:19-42  struct Properties (all fields; [label] omitted, it is only a display string) *)
Record Properties : Set := mkProps {
  p_xmltag : string;
  p_annotationtype : option AnnotationType;
  p_accepted_data : list AcceptedData;
  p_required_data : list AcceptedData;
  p_required_attribs : list AttribType;
  p_optional_attribs : list AttribType;
  p_occurrences : N;
  p_occurrences_per_set : N;
  p_textdelimiter : option string;
  p_printable : bool;
  p_speakable : bool;
  p_hidden : bool;
  p_xlink : bool;
  p_textcontainer : bool;
  p_phoncontainer : bool;
  p_subset : option string;
  p_auth : bool;
  p_primaryelement : bool;
  p_auto_generate_id : bool;
  p_setonly : bool;
  p_wrefable : bool }.

(* specification.rs:98-3161  Properties::new; Specification::get(t) returns Properties::new(t) for every t *)
Definition props (t : ElementType) : Properties :=
  match t with
  | ET_ActorFeature => (* line 98 *)
      mkProps "" None [AcceptElementType ET_Comment; AcceptElementType ET_Description] [] [] [] 0%N 0%N None false false false false false false (Some "actor") true true false false false
  | ET_Alternative => (* line 124 *)
      mkProps "alt" (Some AT_ALTERNATIVE) [AcceptElementGroup EG_Inline; AcceptElementType ET_Comment; AcceptElementType ET_Correction; AcceptElementType ET_Description; AcceptElementType ET_ForeignData; AcceptElementType ET_MorphologyLayer; AcceptElementType ET_PhonologyLayer] [] [] [AB_ANNOTATOR; AB_BEGINTIME; AB_CONFIDENCE; AB_DATETIME; AB_ENDTIME; AB_ID; AB_METADATA; AB_N; AB_SPEAKER; AB_SRC; AB_TAG] 0%N 0%N None false false false false false false None false true false false false
  | ET_AlternativeLayers => (* line 150 *)
      mkProps "altlayers" (Some AT_ALTERNATIVE) [AcceptElementGroup EG_Layer; AcceptElementType ET_Comment; AcceptElementType ET_Description; AcceptElementType ET_ForeignData] [] [] [AB_ANNOTATOR; AB_BEGINTIME; AB_CONFIDENCE; AB_DATETIME; AB_ENDTIME; AB_ID; AB_METADATA; AB_N; AB_SPEAKER; AB_SRC; AB_TAG] 0%N 0%N None false false false false false false None false false false false false
  | ET_BegindatetimeFeature => (* line 176 *)
      mkProps "" None [AcceptElementType ET_Comment; AcceptElementType ET_Description] [] [] [] 0%N 0%N None false false false false false false (Some "begindatetime") true true false false false
  | ET_Caption => (* line 202 *)
      mkProps "caption" None [AcceptElementGroup EG_Layer; AcceptElementGroup EG_Inline; AcceptElementType ET_Alternative; AcceptElementType ET_AlternativeLayers; AcceptElementType ET_Comment; AcceptElementType ET_Correction; AcceptElementType ET_Description; AcceptElementType ET_External; AcceptElementType ET_Feature; AcceptElementType ET_ForeignData; AcceptElementType ET_Gap; AcceptElementType ET_Linebreak; AcceptElementType ET_Metric; AcceptElementType ET_Paragraph; AcceptElementType ET_Part; AcceptElementType ET_PhonContent; AcceptElementType ET_Quote; AcceptElementType ET_Reference; AcceptElementType ET_Relation; AcceptElementType ET_Sentence; AcceptElementType ET_String; AcceptElementType ET_TextContent; AcceptElementType ET_Whitespace] [] [] [AB_ANNOTATOR; AB_BEGINTIME; AB_CLASS; AB_CONFIDENCE; AB_DATETIME; AB_ENDTIME; AB_ID; AB_METADATA; AB_N; AB_SPACE; AB_SPEAKER; AB_SRC; AB_TAG] 1%N 0%N (Some (String (Ascii.ascii_of_nat 10) (String (Ascii.ascii_of_nat 10) ("")))) true true false false false false None true true true false false
  | ET_Cell => (* line 228 *)
      mkProps "cell" None [AcceptElementGroup EG_Layer; AcceptElementGroup EG_Inline; AcceptElementType ET_Alternative; AcceptElementType ET_AlternativeLayers; AcceptElementType ET_Comment; AcceptElementType ET_Correction; AcceptElementType ET_Description; AcceptElementType ET_Entry; AcceptElementType ET_Event; AcceptElementType ET_Example; AcceptElementType ET_External; AcceptElementType ET_Feature; AcceptElementType ET_Figure; AcceptElementType ET_ForeignData; AcceptElementType ET_Gap; AcceptElementType ET_Head; AcceptElementType ET_Hiddenword; AcceptElementType ET_Linebreak; AcceptElementType ET_List; AcceptElementType ET_Metric; AcceptElementType ET_Note; AcceptElementType ET_Paragraph; AcceptElementType ET_Part; AcceptElementType ET_Quote; AcceptElementType ET_Reference; AcceptElementType ET_Relation; AcceptElementType ET_Sentence; AcceptElementType ET_String; AcceptElementType ET_TextContent; AcceptElementType ET_Whitespace; AcceptElementType ET_Word] [] [] [AB_ANNOTATOR; AB_BEGINTIME; AB_CLASS; AB_CONFIDENCE; AB_DATETIME; AB_ENDTIME; AB_ID; AB_METADATA; AB_N; AB_SPACE; AB_SPEAKER; AB_SRC; AB_TAG] 0%N 0%N (Some " | ") true true false false false false None true true true false false
  | ET_Chunk => (* line 254 *)
      mkProps "chunk" (Some AT_CHUNKING) [AcceptElementGroup EG_Inline; AcceptElementType ET_Comment; AcceptElementType ET_Description; AcceptElementType ET_Feature; AcceptElementType ET_ForeignData; AcceptElementType ET_LinkReference; AcceptElementType ET_Metric; AcceptElementType ET_Relation; AcceptElementType ET_WordReference] [] [] [AB_ANNOTATOR; AB_BEGINTIME; AB_CLASS; AB_CONFIDENCE; AB_DATETIME; AB_ENDTIME; AB_ID; AB_METADATA; AB_N; AB_SPEAKER; AB_SRC; AB_TAG; AB_TEXTCLASS] 0%N 0%N None true true false false false false None true true false false false
  | ET_ChunkingLayer => (* line 280 *)
      mkProps "chunking" (Some AT_CHUNKING) [AcceptElementType ET_Chunk; AcceptElementType ET_Comment; AcceptElementType ET_Correction; AcceptElementType ET_Description; AcceptElementType ET_ForeignData] [] [] [AB_ID; AB_TAG] 0%N 0%N None false false false false false false None true false false true false
  | ET_Comment => (* line 305 *)
      mkProps "comment" (Some AT_COMMENT) [AcceptElementType ET_Comment; AcceptElementType ET_Description] [] [] [AB_ANNOTATOR; AB_CONFIDENCE; AB_DATETIME; AB_ID; AB_METADATA; AB_N; AB_TAG] 0%N 0%N None false false false false false false None true true false false false
  | ET_Content => (* line 331 *)
      mkProps "content" (Some AT_RAWCONTENT) [AcceptElementType ET_Comment; AcceptElementType ET_Description] [] [] [AB_ANNOTATOR; AB_CLASS; AB_CONFIDENCE; AB_DATETIME; AB_METADATA; AB_TAG] 1%N 0%N None true false false false false false None true true false false false
  | ET_CoreferenceChain => (* line 357 *)
      mkProps "coreferencechain" (Some AT_COREFERENCE) [AcceptElementGroup EG_Inline; AcceptElementType ET_Comment; AcceptElementType ET_CoreferenceLink; AcceptElementType ET_Description; AcceptElementType ET_Feature; AcceptElementType ET_ForeignData; AcceptElementType ET_LinkReference; AcceptElementType ET_Metric; AcceptElementType ET_Relation] [AcceptElementType ET_CoreferenceLink] [] [AB_ANNOTATOR; AB_BEGINTIME; AB_CLASS; AB_CONFIDENCE; AB_DATETIME; AB_ENDTIME; AB_ID; AB_METADATA; AB_N; AB_SPEAKER; AB_SRC; AB_TAG; AB_TEXTCLASS] 0%N 0%N None true true false false false false None true true false false false
  | ET_CoreferenceLayer => (* line 383 *)
      mkProps "coreferences" (Some AT_COREFERENCE) [AcceptElementType ET_Comment; AcceptElementType ET_CoreferenceChain; AcceptElementType ET_Correction; AcceptElementType ET_Description; AcceptElementType ET_ForeignData] [] [] [AB_ID; AB_TAG] 0%N 0%N None false false false false false false None true false false true false
  | ET_CoreferenceLink => (* line 408 *)
      mkProps "coreferencelink" (Some AT_COREFERENCE) [AcceptElementGroup EG_Inline; AcceptElementType ET_Comment; AcceptElementType ET_Description; AcceptElementType ET_Feature; AcceptElementType ET_ForeignData; AcceptElementType ET_Headspan; AcceptElementType ET_LevelFeature; AcceptElementType ET_LinkReference; AcceptElementType ET_Metric; AcceptElementType ET_ModalityFeature; AcceptElementType ET_Relation; AcceptElementType ET_TimeFeature; AcceptElementType ET_WordReference] [] [] [AB_ANNOTATOR; AB_BEGINTIME; AB_CLASS; AB_CONFIDENCE; AB_DATETIME; AB_ENDTIME; AB_ID; AB_METADATA; AB_N; AB_SPEAKER; AB_SRC; AB_TAG; AB_TEXTCLASS] 0%N 0%N None true true false false false false None true false false false false
  | ET_Correction => (* line 434 *)
      mkProps "correction" (Some AT_CORRECTION) [AcceptElementType ET_Comment; AcceptElementType ET_Current; AcceptElementType ET_Description; AcceptElementType ET_ErrorDetection; AcceptElementType ET_Feature; AcceptElementType ET_ForeignData; AcceptElementType ET_Metric; AcceptElementType ET_New; AcceptElementType ET_Original; AcceptElementType ET_Suggestion] [] [] [AB_ANNOTATOR; AB_BEGINTIME; AB_CLASS; AB_CONFIDENCE; AB_DATETIME; AB_ENDTIME; AB_ID; AB_METADATA; AB_N; AB_SPEAKER; AB_SRC; AB_TAG] 0%N 0%N None true true false false false false None true true false false false
  | ET_Cue => (* line 460 *)
      mkProps "cue" None [AcceptElementGroup EG_Inline; AcceptElementType ET_Comment; AcceptElementType ET_Description; AcceptElementType ET_Feature; AcceptElementType ET_ForeignData; AcceptElementType ET_LinkReference; AcceptElementType ET_Metric; AcceptElementType ET_Relation; AcceptElementType ET_WordReference] [] [] [AB_ANNOTATOR; AB_BEGINTIME; AB_CLASS; AB_CONFIDENCE; AB_DATETIME; AB_ENDTIME; AB_ID; AB_METADATA; AB_N; AB_SPEAKER; AB_SRC; AB_TAG; AB_TEXTCLASS] 1%N 0%N None true true false false false false None true false false false false
  | ET_Current => (* line 486 *)
      mkProps "current" (Some AT_CORRECTION) [AcceptElementGroup EG_Inline; AcceptElementGroup EG_Span; AcceptElementGroup EG_Structure; AcceptElementType ET_Comment; AcceptElementType ET_Correction; AcceptElementType ET_Description; AcceptElementType ET_ForeignData; AcceptElementType ET_Metric; AcceptElementType ET_PhonContent; AcceptElementType ET_String; AcceptElementType ET_TextContent] [] [] [AB_ANNOTATOR; AB_CONFIDENCE; AB_DATETIME; AB_ID; AB_N; AB_TAG] 1%N 0%N None true true false false false false None true false false false false
  | ET_Definition => (* line 511 *)
      mkProps "def" (Some AT_DEFINITION) [AcceptElementGroup EG_Layer; AcceptElementGroup EG_Inline; AcceptElementType ET_Alternative; AcceptElementType ET_AlternativeLayers; AcceptElementType ET_Comment; AcceptElementType ET_Correction; AcceptElementType ET_Description; AcceptElementType ET_External; AcceptElementType ET_Feature; AcceptElementType ET_Figure; AcceptElementType ET_ForeignData; AcceptElementType ET_Hiddenword; AcceptElementType ET_Linebreak; AcceptElementType ET_List; AcceptElementType ET_Metric; AcceptElementType ET_Paragraph; AcceptElementType ET_Part; AcceptElementType ET_PhonContent; AcceptElementType ET_Reference; AcceptElementType ET_Relation; AcceptElementType ET_Sentence; AcceptElementType ET_String; AcceptElementType ET_Table; AcceptElementType ET_TextContent; AcceptElementType ET_Utterance; AcceptElementType ET_Whitespace; AcceptElementType ET_Word] [] [] [AB_ANNOTATOR; AB_BEGINTIME; AB_CLASS; AB_CONFIDENCE; AB_DATETIME; AB_ENDTIME; AB_ID; AB_METADATA; AB_N; AB_SPACE; AB_SPEAKER; AB_SRC; AB_TAG] 0%N 0%N (Some (String (Ascii.ascii_of_nat 10) (String (Ascii.ascii_of_nat 10) ("")))) true true false false false false None true true true false false
  | ET_DependenciesLayer => (* line 537 *)
      mkProps "dependencies" (Some AT_DEPENDENCY) [AcceptElementType ET_Comment; AcceptElementType ET_Correction; AcceptElementType ET_Dependency; AcceptElementType ET_Description; AcceptElementType ET_ForeignData] [] [] [AB_ID; AB_TAG] 0%N 0%N None false false false false false false None true false false true false
  | ET_Dependency => (* line 562 *)
      mkProps "dependency" (Some AT_DEPENDENCY) [AcceptElementGroup EG_Inline; AcceptElementType ET_Comment; AcceptElementType ET_DependencyDependent; AcceptElementType ET_Description; AcceptElementType ET_Feature; AcceptElementType ET_ForeignData; AcceptElementType ET_Headspan; AcceptElementType ET_LinkReference; AcceptElementType ET_Metric; AcceptElementType ET_Relation] [AcceptElementType ET_DependencyDependent; AcceptElementType ET_Headspan] [] [AB_ANNOTATOR; AB_BEGINTIME; AB_CLASS; AB_CONFIDENCE; AB_DATETIME; AB_ENDTIME; AB_ID; AB_METADATA; AB_N; AB_SPEAKER; AB_SRC; AB_TAG; AB_TEXTCLASS] 0%N 0%N None true true false false false false None true true false false false
  | ET_DependencyDependent => (* line 588 *)
      mkProps "dep" None [AcceptElementGroup EG_Inline; AcceptElementType ET_Comment; AcceptElementType ET_Description; AcceptElementType ET_Feature; AcceptElementType ET_ForeignData; AcceptElementType ET_LinkReference; AcceptElementType ET_Metric; AcceptElementType ET_Relation; AcceptElementType ET_WordReference] [] [] [AB_ANNOTATOR; AB_BEGINTIME; AB_CLASS; AB_CONFIDENCE; AB_DATETIME; AB_ENDTIME; AB_ID; AB_METADATA; AB_N; AB_SPEAKER; AB_SRC; AB_TAG; AB_TEXTCLASS] 1%N 0%N None true true false false false false None true false false false false
  | ET_Description => (* line 614 *)
      mkProps "desc" (Some AT_DESCRIPTION) [AcceptElementType ET_Comment; AcceptElementType ET_Description] [] [] [AB_ANNOTATOR; AB_CONFIDENCE; AB_DATETIME; AB_ID; AB_METADATA; AB_N; AB_TAG] 1%N 0%N None false false false false false false None true true false false false
  | ET_Division => (* line 640 *)
      mkProps "div" (Some AT_DIVISION) [AcceptElementGroup EG_Layer; AcceptElementGroup EG_Inline; AcceptElementType ET_Alternative; AcceptElementType ET_AlternativeLayers; AcceptElementType ET_Comment; AcceptElementType ET_Correction; AcceptElementType ET_Description; AcceptElementType ET_Division; AcceptElementType ET_Entry; AcceptElementType ET_Event; AcceptElementType ET_Example; AcceptElementType ET_External; AcceptElementType ET_Feature; AcceptElementType ET_Figure; AcceptElementType ET_ForeignData; AcceptElementType ET_Gap; AcceptElementType ET_Head; AcceptElementType ET_Linebreak; AcceptElementType ET_List; AcceptElementType ET_Metric; AcceptElementType ET_Note; AcceptElementType ET_Paragraph; AcceptElementType ET_Part; AcceptElementType ET_PhonContent; AcceptElementType ET_Quote; AcceptElementType ET_Reference; AcceptElementType ET_Relation; AcceptElementType ET_Sentence; AcceptElementType ET_Table; AcceptElementType ET_TextContent; AcceptElementType ET_Utterance; AcceptElementType ET_Whitespace; AcceptElementType ET_Word] [] [] [AB_ANNOTATOR; AB_BEGINTIME; AB_CLASS; AB_CONFIDENCE; AB_DATETIME; AB_ENDTIME; AB_ID; AB_METADATA; AB_N; AB_SPACE; AB_SPEAKER; AB_SRC; AB_TAG] 0%N 0%N (Some (String (Ascii.ascii_of_nat 10) (String (Ascii.ascii_of_nat 10) (String (Ascii.ascii_of_nat 10) (""))))) true true false false false false None true true true false false
  | ET_DomainAnnotation => (* line 666 *)
      mkProps "domain" (Some AT_DOMAIN) [AcceptElementType ET_Comment; AcceptElementType ET_Description; AcceptElementType ET_Feature; AcceptElementType ET_ForeignData; AcceptElementType ET_Metric] [] [AB_CLASS] [AB_ANNOTATOR; AB_BEGINTIME; AB_CLASS; AB_CONFIDENCE; AB_DATETIME; AB_ENDTIME; AB_ID; AB_METADATA; AB_N; AB_SPEAKER; AB_SRC; AB_TAG; AB_TEXTCLASS] 0%N 0%N None false false false false false false None true true false false false
  | ET_EnddatetimeFeature => (* line 692 *)
      mkProps "" None [AcceptElementType ET_Comment; AcceptElementType ET_Description] [] [] [] 0%N 0%N None false false false false false false (Some "enddatetime") true true false false false
  | ET_EntitiesLayer => (* line 718 *)
      mkProps "entities" (Some AT_ENTITY) [AcceptElementType ET_Comment; AcceptElementType ET_Correction; AcceptElementType ET_Description; AcceptElementType ET_Entity; AcceptElementType ET_ForeignData] [] [] [AB_ID; AB_TAG] 0%N 0%N None false false false false false false None true false false true false
  | ET_Entity => (* line 743 *)
      mkProps "entity" (Some AT_ENTITY) [AcceptElementGroup EG_Inline; AcceptElementType ET_Comment; AcceptElementType ET_Description; AcceptElementType ET_Feature; AcceptElementType ET_ForeignData; AcceptElementType ET_LinkReference; AcceptElementType ET_Metric; AcceptElementType ET_Relation; AcceptElementType ET_WordReference] [] [] [AB_ANNOTATOR; AB_BEGINTIME; AB_CLASS; AB_CONFIDENCE; AB_DATETIME; AB_ENDTIME; AB_ID; AB_METADATA; AB_N; AB_SPEAKER; AB_SRC; AB_TAG; AB_TEXTCLASS] 0%N 0%N None true true false false false false None true true false false false
  | ET_Entry => (* line 769 *)
      mkProps "entry" (Some AT_ENTRY) [AcceptElementGroup EG_Layer; AcceptElementType ET_Alternative; AcceptElementType ET_AlternativeLayers; AcceptElementType ET_Comment; AcceptElementType ET_Correction; AcceptElementType ET_Definition; AcceptElementType ET_Description; AcceptElementType ET_Example; AcceptElementType ET_External; AcceptElementType ET_Feature; AcceptElementType ET_ForeignData; AcceptElementType ET_Metric; AcceptElementType ET_Part; AcceptElementType ET_Relation; AcceptElementType ET_String; AcceptElementType ET_Term; AcceptElementType ET_TextContent] [] [] [AB_ANNOTATOR; AB_BEGINTIME; AB_CLASS; AB_CONFIDENCE; AB_DATETIME; AB_ENDTIME; AB_ID; AB_METADATA; AB_N; AB_SPACE; AB_SPEAKER; AB_SRC; AB_TAG] 0%N 0%N (Some (String (Ascii.ascii_of_nat 10) (String (Ascii.ascii_of_nat 10) ("")))) true true false false false false None true true true false false
  | ET_ErrorDetection => (* line 795 *)
      mkProps "errordetection" (Some AT_ERRORDETECTION) [AcceptElementType ET_Comment; AcceptElementType ET_Description; AcceptElementType ET_Feature; AcceptElementType ET_ForeignData; AcceptElementType ET_Metric] [] [AB_CLASS] [AB_ANNOTATOR; AB_BEGINTIME; AB_CLASS; AB_CONFIDENCE; AB_DATETIME; AB_ENDTIME; AB_ID; AB_METADATA; AB_N; AB_SPEAKER; AB_SRC; AB_TAG; AB_TEXTCLASS] 0%N 0%N None false false false false false false None true true false false false
  | ET_Event => (* line 821 *)
      mkProps "event" (Some AT_EVENT) [AcceptElementGroup EG_Layer; AcceptElementGroup EG_Inline; AcceptElementType ET_ActorFeature; AcceptElementType ET_Alternative; AcceptElementType ET_AlternativeLayers; AcceptElementType ET_BegindatetimeFeature; AcceptElementType ET_Comment; AcceptElementType ET_Correction; AcceptElementType ET_Description; AcceptElementType ET_Division; AcceptElementType ET_EnddatetimeFeature; AcceptElementType ET_Entry; AcceptElementType ET_Event; AcceptElementType ET_Example; AcceptElementType ET_External; AcceptElementType ET_Feature; AcceptElementType ET_Figure; AcceptElementType ET_ForeignData; AcceptElementType ET_Gap; AcceptElementType ET_Head; AcceptElementType ET_Hiddenword; AcceptElementType ET_Linebreak; AcceptElementType ET_List; AcceptElementType ET_Metric; AcceptElementType ET_Note; AcceptElementType ET_Paragraph; AcceptElementType ET_Part; AcceptElementType ET_PhonContent; AcceptElementType ET_Quote; AcceptElementType ET_Reference; AcceptElementType ET_Relation; AcceptElementType ET_Sentence; AcceptElementType ET_String; AcceptElementType ET_Table; AcceptElementType ET_TextContent; AcceptElementType ET_Utterance; AcceptElementType ET_Whitespace; AcceptElementType ET_Word] [] [] [AB_ANNOTATOR; AB_BEGINTIME; AB_CLASS; AB_CONFIDENCE; AB_DATETIME; AB_ENDTIME; AB_ID; AB_METADATA; AB_N; AB_SPACE; AB_SPEAKER; AB_SRC; AB_TAG] 0%N 0%N (Some (String (Ascii.ascii_of_nat 10) (String (Ascii.ascii_of_nat 10) ("")))) true true false false false false None true true true false false
  | ET_Example => (* line 847 *)
      mkProps "ex" (Some AT_EXAMPLE) [AcceptElementGroup EG_Layer; AcceptElementGroup EG_Inline; AcceptElementType ET_Alternative; AcceptElementType ET_AlternativeLayers; AcceptElementType ET_Comment; AcceptElementType ET_Correction; AcceptElementType ET_Description; AcceptElementType ET_External; AcceptElementType ET_Feature; AcceptElementType ET_Figure; AcceptElementType ET_ForeignData; AcceptElementType ET_Hiddenword; AcceptElementType ET_Linebreak; AcceptElementType ET_List; AcceptElementType ET_Metric; AcceptElementType ET_Paragraph; AcceptElementType ET_Part; AcceptElementType ET_PhonContent; AcceptElementType ET_Reference; AcceptElementType ET_Relation; AcceptElementType ET_Sentence; AcceptElementType ET_String; AcceptElementType ET_Table; AcceptElementType ET_TextContent; AcceptElementType ET_Utterance; AcceptElementType ET_Whitespace; AcceptElementType ET_Word] [] [] [AB_ANNOTATOR; AB_BEGINTIME; AB_CLASS; AB_CONFIDENCE; AB_DATETIME; AB_ENDTIME; AB_ID; AB_METADATA; AB_N; AB_SPACE; AB_SPEAKER; AB_SRC; AB_TAG] 0%N 0%N (Some (String (Ascii.ascii_of_nat 10) (String (Ascii.ascii_of_nat 10) ("")))) true true false false false false None true true true false false
  | ET_External => (* line 873 *)
      mkProps "external" (Some AT_EXTERNAL) [] [] [AB_SRC] [AB_ANNOTATOR; AB_BEGINTIME; AB_CONFIDENCE; AB_DATETIME; AB_ENDTIME; AB_ID; AB_METADATA; AB_N; AB_TAG] 0%N 0%N None true true false false false false None true true false false false
  | ET_Feature => (* line 899 *)
      mkProps "feat" None [AcceptElementType ET_Comment; AcceptElementType ET_Description] [] [] [] 0%N 0%N None false false false false false false None true true false false false
  | ET_Figure => (* line 925 *)
      mkProps "figure" (Some AT_FIGURE) [AcceptElementGroup EG_Layer; AcceptElementType ET_Alternative; AcceptElementType ET_AlternativeLayers; AcceptElementType ET_Caption; AcceptElementType ET_Comment; AcceptElementType ET_Correction; AcceptElementType ET_Description; AcceptElementType ET_External; AcceptElementType ET_Feature; AcceptElementType ET_ForeignData; AcceptElementType ET_Linebreak; AcceptElementType ET_Metric; AcceptElementType ET_Part; AcceptElementType ET_Relation; AcceptElementType ET_String; AcceptElementType ET_TextContent] [] [] [AB_ANNOTATOR; AB_BEGINTIME; AB_CLASS; AB_CONFIDENCE; AB_DATETIME; AB_ENDTIME; AB_ID; AB_METADATA; AB_N; AB_SPACE; AB_SPEAKER; AB_SRC; AB_TAG] 0%N 0%N (Some (String (Ascii.ascii_of_nat 10) (String (Ascii.ascii_of_nat 10) ("")))) true false false false false false None true true true false false
  | ET_FontFeature => (* line 951 *)
      mkProps "" None [AcceptElementType ET_Comment; AcceptElementType ET_Description] [] [] [] 0%N 0%N None false false false false false false (Some "font") true true false false false
  | ET_ForeignData => (* line 977 *)
      mkProps "foreign-data" None [AcceptElementType ET_Comment; AcceptElementType ET_Description] [] [] [] 0%N 0%N None false false false false false false None true true false false false
  | ET_FunctionFeature => (* line 1002 *)
      mkProps "" None [AcceptElementType ET_Comment; AcceptElementType ET_Description] [] [] [] 0%N 0%N None false false false false false false (Some "function") true true false false false
  | ET_Gap => (* line 1028 *)
      mkProps "gap" (Some AT_GAP) [AcceptElementType ET_Comment; AcceptElementType ET_Content; AcceptElementType ET_Description; AcceptElementType ET_Feature; AcceptElementType ET_ForeignData; AcceptElementType ET_Metric; AcceptElementType ET_Part] [] [] [AB_ANNOTATOR; AB_BEGINTIME; AB_CLASS; AB_DATETIME; AB_ENDTIME; AB_ID; AB_METADATA; AB_N; AB_SRC; AB_TAG] 0%N 0%N None false false false false false false None true true false false false
  | ET_Head => (* line 1054 *)
      mkProps "head" (Some AT_HEAD) [AcceptElementGroup EG_Layer; AcceptElementGroup EG_Inline; AcceptElementType ET_Alternative; AcceptElementType ET_AlternativeLayers; AcceptElementType ET_Comment; AcceptElementType ET_Correction; AcceptElementType ET_Description; AcceptElementType ET_Event; AcceptElementType ET_External; AcceptElementType ET_Feature; AcceptElementType ET_ForeignData; AcceptElementType ET_Gap; AcceptElementType ET_Hiddenword; AcceptElementType ET_Linebreak; AcceptElementType ET_Metric; AcceptElementType ET_Paragraph; AcceptElementType ET_Part; AcceptElementType ET_PhonContent; AcceptElementType ET_Reference; AcceptElementType ET_Relation; AcceptElementType ET_Sentence; AcceptElementType ET_String; AcceptElementType ET_TextContent; AcceptElementType ET_Whitespace; AcceptElementType ET_Word] [] [] [AB_ANNOTATOR; AB_BEGINTIME; AB_CLASS; AB_CONFIDENCE; AB_DATETIME; AB_ENDTIME; AB_ID; AB_METADATA; AB_N; AB_SPACE; AB_SPEAKER; AB_SRC; AB_TAG] 0%N 0%N (Some (String (Ascii.ascii_of_nat 10) (String (Ascii.ascii_of_nat 10) ("")))) true true false false false false None true true true false false
  | ET_HeadFeature => (* line 1080 *)
      mkProps "" None [AcceptElementType ET_Comment; AcceptElementType ET_Description] [] [] [] 0%N 0%N None false false false false false false (Some "head") true true false false false
  | ET_Headspan => (* line 1106 *)
      mkProps "hd" None [AcceptElementGroup EG_Inline; AcceptElementType ET_Comment; AcceptElementType ET_Description; AcceptElementType ET_Feature; AcceptElementType ET_ForeignData; AcceptElementType ET_LinkReference; AcceptElementType ET_Metric; AcceptElementType ET_Relation; AcceptElementType ET_WordReference] [] [] [AB_ANNOTATOR; AB_BEGINTIME; AB_CLASS; AB_CONFIDENCE; AB_DATETIME; AB_ENDTIME; AB_ID; AB_METADATA; AB_N; AB_SPEAKER; AB_SRC; AB_TAG; AB_TEXTCLASS] 1%N 0%N None true true false false false false None true false false false false
  | ET_Hiddenword => (* line 1132 *)
      mkProps "hiddenw" (Some AT_HIDDENTOKEN) [AcceptElementGroup EG_Layer; AcceptElementGroup EG_Inline; AcceptElementType ET_Alternative; AcceptElementType ET_AlternativeLayers; AcceptElementType ET_Comment; AcceptElementType ET_Correction; AcceptElementType ET_Description; AcceptElementType ET_External; AcceptElementType ET_Feature; AcceptElementType ET_ForeignData; AcceptElementType ET_Metric; AcceptElementType ET_Part; AcceptElementType ET_PhonContent; AcceptElementType ET_Reference; AcceptElementType ET_Relation; AcceptElementType ET_String; AcceptElementType ET_TextContent] [] [] [AB_ANNOTATOR; AB_BEGINTIME; AB_CLASS; AB_CONFIDENCE; AB_DATETIME; AB_ENDTIME; AB_ID; AB_METADATA; AB_N; AB_SPACE; AB_SPEAKER; AB_SRC; AB_TAG; AB_TEXTCLASS] 0%N 0%N (Some " ") true true true false false false None true true true false true
  | ET_Hyphbreak => (* line 1158 *)
      mkProps "t-hbr" (Some AT_HYPHENATION) [AcceptElementGroup EG_TextMarkup; AcceptElementType ET_Comment; AcceptElementType ET_Description; AcceptElementType ET_Feature; AcceptElementType ET_Linebreak] [] [] [AB_ANNOTATOR; AB_BEGINTIME; AB_CLASS; AB_CONFIDENCE; AB_DATETIME; AB_ENDTIME; AB_ID; AB_METADATA; AB_N; AB_SPEAKER; AB_SRC; AB_TAG] 0%N 0%N (Some "") true false false true true false None true false false false false
  | ET_Label => (* line 1184 *)
      mkProps "label" None [AcceptElementGroup EG_Layer; AcceptElementGroup EG_Inline; AcceptElementType ET_Alternative; AcceptElementType ET_AlternativeLayers; AcceptElementType ET_Comment; AcceptElementType ET_Correction; AcceptElementType ET_Description; AcceptElementType ET_External; AcceptElementType ET_Feature; AcceptElementType ET_ForeignData; AcceptElementType ET_Hiddenword; AcceptElementType ET_Linebreak; AcceptElementType ET_Metric; AcceptElementType ET_Part; AcceptElementType ET_PhonContent; AcceptElementType ET_Reference; AcceptElementType ET_Relation; AcceptElementType ET_String; AcceptElementType ET_TextContent; AcceptElementType ET_Whitespace; AcceptElementType ET_Word] [] [] [AB_ANNOTATOR; AB_BEGINTIME; AB_CLASS; AB_CONFIDENCE; AB_DATETIME; AB_ENDTIME; AB_ID; AB_METADATA; AB_N; AB_SPACE; AB_SPEAKER; AB_SRC; AB_TAG] 0%N 0%N (Some (String (Ascii.ascii_of_nat 10) (String (Ascii.ascii_of_nat 10) ("")))) true true false false false false None true true true false false
  | ET_LangAnnotation => (* line 1210 *)
      mkProps "lang" (Some AT_LANG) [AcceptElementType ET_Comment; AcceptElementType ET_Description; AcceptElementType ET_Feature; AcceptElementType ET_ForeignData; AcceptElementType ET_Metric] [] [AB_CLASS] [AB_ANNOTATOR; AB_BEGINTIME; AB_CLASS; AB_CONFIDENCE; AB_DATETIME; AB_ENDTIME; AB_ID; AB_METADATA; AB_N; AB_SPEAKER; AB_SRC; AB_TAG; AB_TEXTCLASS] 0%N 1%N None false false false false false false None true true false false false
  | ET_LemmaAnnotation => (* line 1236 *)
      mkProps "lemma" (Some AT_LEMMA) [AcceptElementType ET_Comment; AcceptElementType ET_Description; AcceptElementType ET_Feature; AcceptElementType ET_ForeignData; AcceptElementType ET_Metric] [] [AB_CLASS] [AB_ANNOTATOR; AB_BEGINTIME; AB_CLASS; AB_CONFIDENCE; AB_DATETIME; AB_ENDTIME; AB_ID; AB_METADATA; AB_N; AB_SPEAKER; AB_SRC; AB_TAG; AB_TEXTCLASS] 0%N 1%N None false false false false false false None true true false false false
  | ET_LevelFeature => (* line 1262 *)
      mkProps "" None [AcceptElementType ET_Comment; AcceptElementType ET_Description] [] [] [] 0%N 0%N None false false false false false false (Some "level") true true false false false
  | ET_Linebreak => (* line 1288 *)
      mkProps "br" (Some AT_LINEBREAK) [AcceptElementGroup EG_Layer; AcceptElementType ET_Alternative; AcceptElementType ET_AlternativeLayers; AcceptElementType ET_Comment; AcceptElementType ET_Correction; AcceptElementType ET_Description; AcceptElementType ET_External; AcceptElementType ET_Feature; AcceptElementType ET_ForeignData; AcceptElementType ET_Metric; AcceptElementType ET_Part; AcceptElementType ET_Relation] [] [] [AB_ANNOTATOR; AB_BEGINTIME; AB_CLASS; AB_CONFIDENCE; AB_DATETIME; AB_ENDTIME; AB_ID; AB_METADATA; AB_N; AB_SPACE; AB_SPEAKER; AB_SRC; AB_TAG] 0%N 0%N (Some "") true true false true false false None true true true false false
  | ET_LinkReference => (* line 1314 *)
      mkProps "xref" None [AcceptElementType ET_Comment; AcceptElementType ET_Description] [] [] [AB_IDREF; AB_TAG] 0%N 0%N None false false false false false false None true true false false false
  | ET_List => (* line 1339 *)
      mkProps "list" (Some AT_LIST) [AcceptElementGroup EG_Layer; AcceptElementGroup EG_Inline; AcceptElementType ET_Alternative; AcceptElementType ET_AlternativeLayers; AcceptElementType ET_Caption; AcceptElementType ET_Comment; AcceptElementType ET_Correction; AcceptElementType ET_Description; AcceptElementType ET_Event; AcceptElementType ET_External; AcceptElementType ET_Feature; AcceptElementType ET_ForeignData; AcceptElementType ET_Linebreak; AcceptElementType ET_ListItem; AcceptElementType ET_Metric; AcceptElementType ET_Note; AcceptElementType ET_Part; AcceptElementType ET_PhonContent; AcceptElementType ET_Reference; AcceptElementType ET_Relation; AcceptElementType ET_String; AcceptElementType ET_TextContent] [] [] [AB_ANNOTATOR; AB_BEGINTIME; AB_CLASS; AB_CONFIDENCE; AB_DATETIME; AB_ENDTIME; AB_ID; AB_METADATA; AB_N; AB_SPACE; AB_SPEAKER; AB_SRC; AB_TAG] 0%N 0%N (Some (String (Ascii.ascii_of_nat 10) (String (Ascii.ascii_of_nat 10) ("")))) true true false false false false None true true true false false
  | ET_ListItem => (* line 1365 *)
      mkProps "item" None [AcceptElementGroup EG_Layer; AcceptElementGroup EG_Inline; AcceptElementType ET_Alternative; AcceptElementType ET_AlternativeLayers; AcceptElementType ET_Comment; AcceptElementType ET_Correction; AcceptElementType ET_Description; AcceptElementType ET_Event; AcceptElementType ET_External; AcceptElementType ET_Feature; AcceptElementType ET_ForeignData; AcceptElementType ET_Gap; AcceptElementType ET_Hiddenword; AcceptElementType ET_Label; AcceptElementType ET_Linebreak; AcceptElementType ET_List; AcceptElementType ET_Metric; AcceptElementType ET_Note; AcceptElementType ET_Paragraph; AcceptElementType ET_Part; AcceptElementType ET_PhonContent; AcceptElementType ET_Quote; AcceptElementType ET_Reference; AcceptElementType ET_Relation; AcceptElementType ET_Sentence; AcceptElementType ET_String; AcceptElementType ET_TextContent; AcceptElementType ET_Whitespace; AcceptElementType ET_Word] [] [] [AB_ANNOTATOR; AB_BEGINTIME; AB_CLASS; AB_CONFIDENCE; AB_DATETIME; AB_ENDTIME; AB_ID; AB_METADATA; AB_N; AB_SPACE; AB_SPEAKER; AB_SRC; AB_TAG] 0%N 0%N (Some (String (Ascii.ascii_of_nat 10) (""))) true true false false false false None true true true false false
  | ET_Metric => (* line 1391 *)
      mkProps "metric" (Some AT_METRIC) [AcceptElementType ET_Comment; AcceptElementType ET_Description; AcceptElementType ET_Feature; AcceptElementType ET_ForeignData; AcceptElementType ET_ValueFeature] [] [] [AB_ANNOTATOR; AB_BEGINTIME; AB_CLASS; AB_CONFIDENCE; AB_DATETIME; AB_ENDTIME; AB_ID; AB_METADATA; AB_N; AB_SPEAKER; AB_SRC; AB_TAG] 0%N 0%N None false false false false false false None true true false false false
  | ET_ModalitiesLayer => (* line 1417 *)
      mkProps "modalities" (Some AT_MODALITY) [AcceptElementType ET_Comment; AcceptElementType ET_Correction; AcceptElementType ET_Description; AcceptElementType ET_ForeignData; AcceptElementType ET_Modality] [] [] [AB_ID; AB_TAG] 0%N 0%N None false false false false false false None true false false true false
  | ET_Modality => (* line 1442 *)
      mkProps "modality" (Some AT_MODALITY) [AcceptElementGroup EG_Inline; AcceptElementType ET_Comment; AcceptElementType ET_Cue; AcceptElementType ET_Description; AcceptElementType ET_Feature; AcceptElementType ET_ForeignData; AcceptElementType ET_LinkReference; AcceptElementType ET_Metric; AcceptElementType ET_PolarityFeature; AcceptElementType ET_Relation; AcceptElementType ET_Scope; AcceptElementType ET_Source; AcceptElementType ET_StrengthFeature; AcceptElementType ET_Target] [] [] [AB_ANNOTATOR; AB_BEGINTIME; AB_CLASS; AB_CONFIDENCE; AB_DATETIME; AB_ENDTIME; AB_ID; AB_METADATA; AB_N; AB_SPEAKER; AB_SRC; AB_TAG; AB_TEXTCLASS] 0%N 0%N None true true false false false false None true true false false false
  | ET_ModalityFeature => (* line 1468 *)
      mkProps "" None [AcceptElementType ET_Comment; AcceptElementType ET_Description] [] [] [] 0%N 0%N None false false false false false false (Some "mod") true true false false false
  | ET_Morpheme => (* line 1494 *)
      mkProps "morpheme" (Some AT_MORPHOLOGICAL) [AcceptElementGroup EG_Layer; AcceptElementGroup EG_Inline; AcceptElementType ET_Alternative; AcceptElementType ET_AlternativeLayers; AcceptElementType ET_Comment; AcceptElementType ET_Correction; AcceptElementType ET_Description; AcceptElementType ET_Feature; AcceptElementType ET_ForeignData; AcceptElementType ET_FunctionFeature; AcceptElementType ET_Metric; AcceptElementType ET_Morpheme; AcceptElementType ET_Part; AcceptElementType ET_PhonContent; AcceptElementType ET_Relation; AcceptElementType ET_String; AcceptElementType ET_TextContent] [] [] [AB_ANNOTATOR; AB_BEGINTIME; AB_CLASS; AB_CONFIDENCE; AB_DATETIME; AB_ENDTIME; AB_ID; AB_METADATA; AB_N; AB_SPEAKER; AB_SRC; AB_TAG] 0%N 0%N (Some "") true true false false false false None true true true false true
  | ET_MorphologyLayer => (* line 1520 *)
      mkProps "morphology" (Some AT_MORPHOLOGICAL) [AcceptElementType ET_Comment; AcceptElementType ET_Correction; AcceptElementType ET_Description; AcceptElementType ET_ForeignData; AcceptElementType ET_Morpheme] [] [] [AB_ID; AB_TAG] 0%N 0%N None false false false false false false None true false false true false
  | ET_New => (* line 1545 *)
      mkProps "new" (Some AT_CORRECTION) [AcceptElementGroup EG_Inline; AcceptElementGroup EG_Span; AcceptElementGroup EG_Structure; AcceptElementType ET_Comment; AcceptElementType ET_Correction; AcceptElementType ET_Description; AcceptElementType ET_ForeignData; AcceptElementType ET_Metric; AcceptElementType ET_PhonContent; AcceptElementType ET_String; AcceptElementType ET_TextContent] [] [] [AB_ANNOTATOR; AB_CONFIDENCE; AB_DATETIME; AB_ID; AB_N; AB_TAG] 1%N 0%N None true true false false false false None true false false false false
  | ET_Note => (* line 1570 *)
      mkProps "note" (Some AT_NOTE) [AcceptElementGroup EG_Layer; AcceptElementGroup EG_Inline; AcceptElementType ET_Alternative; AcceptElementType ET_AlternativeLayers; AcceptElementType ET_Comment; AcceptElementType ET_Correction; AcceptElementType ET_Description; AcceptElementType ET_Example; AcceptElementType ET_External; AcceptElementType ET_Feature; AcceptElementType ET_Figure; AcceptElementType ET_ForeignData; AcceptElementType ET_Head; AcceptElementType ET_Hiddenword; AcceptElementType ET_Linebreak; AcceptElementType ET_List; AcceptElementType ET_Metric; AcceptElementType ET_Paragraph; AcceptElementType ET_Part; AcceptElementType ET_PhonContent; AcceptElementType ET_Reference; AcceptElementType ET_Relation; AcceptElementType ET_Sentence; AcceptElementType ET_String; AcceptElementType ET_Table; AcceptElementType ET_TextContent; AcceptElementType ET_Utterance; AcceptElementType ET_Whitespace; AcceptElementType ET_Word] [] [] [AB_ANNOTATOR; AB_BEGINTIME; AB_CLASS; AB_CONFIDENCE; AB_DATETIME; AB_ENDTIME; AB_ID; AB_METADATA; AB_N; AB_SPACE; AB_SPEAKER; AB_SRC; AB_TAG] 0%N 0%N (Some (String (Ascii.ascii_of_nat 10) (String (Ascii.ascii_of_nat 10) ("")))) true true false false false false None true true true false false
  | ET_Observation => (* line 1596 *)
      mkProps "observation" (Some AT_OBSERVATION) [AcceptElementGroup EG_Inline; AcceptElementType ET_Comment; AcceptElementType ET_Description; AcceptElementType ET_Feature; AcceptElementType ET_ForeignData; AcceptElementType ET_LinkReference; AcceptElementType ET_Metric; AcceptElementType ET_Relation; AcceptElementType ET_WordReference] [] [] [AB_ANNOTATOR; AB_BEGINTIME; AB_CLASS; AB_CONFIDENCE; AB_DATETIME; AB_ENDTIME; AB_ID; AB_METADATA; AB_N; AB_SPEAKER; AB_SRC; AB_TAG; AB_TEXTCLASS] 0%N 0%N None true true false false false false None true true false false false
  | ET_ObservationLayer => (* line 1622 *)
      mkProps "observations" (Some AT_OBSERVATION) [AcceptElementType ET_Comment; AcceptElementType ET_Correction; AcceptElementType ET_Description; AcceptElementType ET_ForeignData; AcceptElementType ET_Observation] [] [] [AB_ID; AB_TAG] 0%N 0%N None false false false false false false None true false false true false
  | ET_Original => (* line 1647 *)
      mkProps "original" (Some AT_CORRECTION) [AcceptElementGroup EG_Inline; AcceptElementGroup EG_Span; AcceptElementGroup EG_Structure; AcceptElementType ET_Comment; AcceptElementType ET_Correction; AcceptElementType ET_Description; AcceptElementType ET_ForeignData; AcceptElementType ET_Metric; AcceptElementType ET_PhonContent; AcceptElementType ET_String; AcceptElementType ET_TextContent] [] [] [AB_ANNOTATOR; AB_CONFIDENCE; AB_DATETIME; AB_ID; AB_N; AB_TAG] 1%N 0%N None true true false false false false None false false false false false
  | ET_Paragraph => (* line 1672 *)
      mkProps "p" (Some AT_PARAGRAPH) [AcceptElementGroup EG_Layer; AcceptElementGroup EG_Inline; AcceptElementType ET_Alternative; AcceptElementType ET_AlternativeLayers; AcceptElementType ET_Comment; AcceptElementType ET_Correction; AcceptElementType ET_Description; AcceptElementType ET_Entry; AcceptElementType ET_Event; AcceptElementType ET_Example; AcceptElementType ET_External; AcceptElementType ET_Feature; AcceptElementType ET_Figure; AcceptElementType ET_ForeignData; AcceptElementType ET_Gap; AcceptElementType ET_Head; AcceptElementType ET_Hiddenword; AcceptElementType ET_Linebreak; AcceptElementType ET_List; AcceptElementType ET_Metric; AcceptElementType ET_Note; AcceptElementType ET_Part; AcceptElementType ET_PhonContent; AcceptElementType ET_Quote; AcceptElementType ET_Reference; AcceptElementType ET_Relation; AcceptElementType ET_Sentence; AcceptElementType ET_String; AcceptElementType ET_TextContent; AcceptElementType ET_Whitespace; AcceptElementType ET_Word] [] [] [AB_ANNOTATOR; AB_BEGINTIME; AB_CLASS; AB_CONFIDENCE; AB_DATETIME; AB_ENDTIME; AB_ID; AB_METADATA; AB_N; AB_SPACE; AB_SPEAKER; AB_SRC; AB_TAG] 0%N 0%N (Some (String (Ascii.ascii_of_nat 10) (String (Ascii.ascii_of_nat 10) ("")))) true true false false false false None true true true false false
  | ET_Part => (* line 1698 *)
      mkProps "part" (Some AT_PART) [AcceptElementGroup EG_Layer; AcceptElementGroup EG_Inline; AcceptElementGroup EG_Structure; AcceptElementType ET_Alternative; AcceptElementType ET_AlternativeLayers; AcceptElementType ET_Comment; AcceptElementType ET_Correction; AcceptElementType ET_Description; AcceptElementType ET_External; AcceptElementType ET_Feature; AcceptElementType ET_ForeignData; AcceptElementType ET_Metric; AcceptElementType ET_Part; AcceptElementType ET_PhonContent; AcceptElementType ET_Relation; AcceptElementType ET_TextContent] [] [] [AB_ANNOTATOR; AB_BEGINTIME; AB_CLASS; AB_CONFIDENCE; AB_DATETIME; AB_ENDTIME; AB_ID; AB_METADATA; AB_N; AB_SPACE; AB_SPEAKER; AB_SRC; AB_TAG] 0%N 0%N (Some " ") true true false false false false None true true true false false
  | ET_PhonContent => (* line 1724 *)
      mkProps "ph" (Some AT_PHON) [AcceptElementType ET_Comment; AcceptElementType ET_Description; AcceptElementType ET_Feature] [] [] [AB_ANNOTATOR; AB_CLASS; AB_CONFIDENCE; AB_DATETIME; AB_METADATA; AB_TAG] 0%N 0%N None false true false false false true None true true false false false
  | ET_Phoneme => (* line 1750 *)
      mkProps "phoneme" (Some AT_PHONOLOGICAL) [AcceptElementGroup EG_Layer; AcceptElementGroup EG_Inline; AcceptElementType ET_Alternative; AcceptElementType ET_AlternativeLayers; AcceptElementType ET_Comment; AcceptElementType ET_Correction; AcceptElementType ET_Description; AcceptElementType ET_Feature; AcceptElementType ET_ForeignData; AcceptElementType ET_FunctionFeature; AcceptElementType ET_Metric; AcceptElementType ET_Part; AcceptElementType ET_PhonContent; AcceptElementType ET_Phoneme; AcceptElementType ET_Relation; AcceptElementType ET_String; AcceptElementType ET_TextContent] [] [] [AB_ANNOTATOR; AB_BEGINTIME; AB_CLASS; AB_CONFIDENCE; AB_DATETIME; AB_ENDTIME; AB_ID; AB_METADATA; AB_N; AB_SPEAKER; AB_SRC; AB_TAG] 0%N 0%N (Some "") true true false false false false None true true true false true
  | ET_PhonologyLayer => (* line 1776 *)
      mkProps "phonology" (Some AT_PHONOLOGICAL) [AcceptElementType ET_Comment; AcceptElementType ET_Correction; AcceptElementType ET_Description; AcceptElementType ET_ForeignData; AcceptElementType ET_Phoneme] [] [] [AB_ID; AB_TAG] 0%N 0%N None false false false false false false None true false false true false
  | ET_PolarityFeature => (* line 1801 *)
      mkProps "" None [AcceptElementType ET_Comment; AcceptElementType ET_Description] [] [] [] 0%N 0%N None false false false false false false (Some "polarity") true true false false false
  | ET_PosAnnotation => (* line 1827 *)
      mkProps "pos" (Some AT_POS) [AcceptElementType ET_Comment; AcceptElementType ET_Description; AcceptElementType ET_Feature; AcceptElementType ET_ForeignData; AcceptElementType ET_HeadFeature; AcceptElementType ET_Metric] [] [AB_CLASS] [AB_ANNOTATOR; AB_BEGINTIME; AB_CLASS; AB_CONFIDENCE; AB_DATETIME; AB_ENDTIME; AB_ID; AB_METADATA; AB_N; AB_SPEAKER; AB_SRC; AB_TAG; AB_TEXTCLASS] 0%N 1%N None false false false false false false None true true false false false
  | ET_Predicate => (* line 1853 *)
      mkProps "predicate" (Some AT_PREDICATE) [AcceptElementGroup EG_Inline; AcceptElementType ET_Comment; AcceptElementType ET_Description; AcceptElementType ET_Feature; AcceptElementType ET_ForeignData; AcceptElementType ET_LinkReference; AcceptElementType ET_Metric; AcceptElementType ET_Relation; AcceptElementType ET_SemanticRole; AcceptElementType ET_WordReference] [] [] [AB_ANNOTATOR; AB_BEGINTIME; AB_CLASS; AB_CONFIDENCE; AB_DATETIME; AB_ENDTIME; AB_ID; AB_METADATA; AB_N; AB_SPEAKER; AB_SRC; AB_TAG; AB_TEXTCLASS] 0%N 0%N None true true false false false false None true true false false false
  | ET_Quote => (* line 1879 *)
      mkProps "quote" (Some AT_QUOTE) [AcceptElementGroup EG_Layer; AcceptElementGroup EG_Inline; AcceptElementType ET_Alternative; AcceptElementType ET_AlternativeLayers; AcceptElementType ET_Comment; AcceptElementType ET_Correction; AcceptElementType ET_Description; AcceptElementType ET_Division; AcceptElementType ET_External; AcceptElementType ET_Feature; AcceptElementType ET_ForeignData; AcceptElementType ET_Gap; AcceptElementType ET_Hiddenword; AcceptElementType ET_Linebreak; AcceptElementType ET_Metric; AcceptElementType ET_Paragraph; AcceptElementType ET_Part; AcceptElementType ET_Quote; AcceptElementType ET_Reference; AcceptElementType ET_Relation; AcceptElementType ET_Sentence; AcceptElementType ET_String; AcceptElementType ET_TextContent; AcceptElementType ET_Utterance; AcceptElementType ET_Whitespace; AcceptElementType ET_Word] [] [] [AB_ANNOTATOR; AB_BEGINTIME; AB_CLASS; AB_CONFIDENCE; AB_DATETIME; AB_ENDTIME; AB_ID; AB_METADATA; AB_N; AB_SPACE; AB_SPEAKER; AB_SRC; AB_TAG] 0%N 0%N (Some (String (Ascii.ascii_of_nat 10) (String (Ascii.ascii_of_nat 10) ("")))) true true false false false false None true true true false false
  | ET_Reference => (* line 1905 *)
      mkProps "ref" (Some AT_REFERENCE) [AcceptElementGroup EG_Layer; AcceptElementType ET_Alternative; AcceptElementType ET_AlternativeLayers; AcceptElementType ET_Comment; AcceptElementType ET_Correction; AcceptElementType ET_Description; AcceptElementType ET_External; AcceptElementType ET_Feature; AcceptElementType ET_ForeignData; AcceptElementType ET_Hiddenword; AcceptElementType ET_Linebreak; AcceptElementType ET_Metric; AcceptElementType ET_Paragraph; AcceptElementType ET_Part; AcceptElementType ET_PhonContent; AcceptElementType ET_Quote; AcceptElementType ET_Relation; AcceptElementType ET_Sentence; AcceptElementType ET_String; AcceptElementType ET_TextContent; AcceptElementType ET_Utterance; AcceptElementType ET_Whitespace; AcceptElementType ET_Word] [] [] [AB_ANNOTATOR; AB_BEGINTIME; AB_CLASS; AB_CONFIDENCE; AB_DATETIME; AB_ENDTIME; AB_ID; AB_METADATA; AB_N; AB_SPACE; AB_SPEAKER; AB_SRC; AB_TAG] 0%N 0%N (Some " ") true true false true false false None true true true false false
  | ET_Relation => (* line 1931 *)
      mkProps "relation" (Some AT_RELATION) [AcceptElementType ET_Comment; AcceptElementType ET_Description; AcceptElementType ET_Feature; AcceptElementType ET_ForeignData; AcceptElementType ET_LinkReference; AcceptElementType ET_Metric] [] [] [AB_ANNOTATOR; AB_BEGINTIME; AB_CLASS; AB_CONFIDENCE; AB_DATETIME; AB_ENDTIME; AB_ID; AB_METADATA; AB_N; AB_SPEAKER; AB_SRC; AB_TAG] 0%N 0%N None false false false true false false None true true false false false
  | ET_Row => (* line 1957 *)
      mkProps "row" None [AcceptElementGroup EG_Layer; AcceptElementGroup EG_Inline; AcceptElementType ET_Alternative; AcceptElementType ET_AlternativeLayers; AcceptElementType ET_Cell; AcceptElementType ET_Comment; AcceptElementType ET_Correction; AcceptElementType ET_Description; AcceptElementType ET_External; AcceptElementType ET_Feature; AcceptElementType ET_ForeignData; AcceptElementType ET_Metric; AcceptElementType ET_Part; AcceptElementType ET_Relation] [] [] [AB_ANNOTATOR; AB_BEGINTIME; AB_CLASS; AB_CONFIDENCE; AB_DATETIME; AB_ENDTIME; AB_ID; AB_METADATA; AB_N; AB_SPACE; AB_SPEAKER; AB_SRC; AB_TAG] 0%N 0%N (Some (String (Ascii.ascii_of_nat 10) (""))) true true false false false false None true true true false false
  | ET_Scope => (* line 1983 *)
      mkProps "scope" None [AcceptElementGroup EG_Inline; AcceptElementType ET_Comment; AcceptElementType ET_Cue; AcceptElementType ET_Description; AcceptElementType ET_Feature; AcceptElementType ET_ForeignData; AcceptElementType ET_LinkReference; AcceptElementType ET_Metric; AcceptElementType ET_Relation; AcceptElementType ET_Source; AcceptElementType ET_Target; AcceptElementType ET_WordReference] [] [] [AB_ANNOTATOR; AB_BEGINTIME; AB_CLASS; AB_CONFIDENCE; AB_DATETIME; AB_ENDTIME; AB_ID; AB_METADATA; AB_N; AB_SPEAKER; AB_SRC; AB_TAG; AB_TEXTCLASS] 1%N 0%N None true true false false false false None true false false false false
  | ET_SemanticRole => (* line 2009 *)
      mkProps "semrole" (Some AT_SEMROLE) [AcceptElementGroup EG_Inline; AcceptElementType ET_Comment; AcceptElementType ET_Description; AcceptElementType ET_Feature; AcceptElementType ET_ForeignData; AcceptElementType ET_Headspan; AcceptElementType ET_LinkReference; AcceptElementType ET_Metric; AcceptElementType ET_Relation; AcceptElementType ET_WordReference] [] [AB_CLASS] [AB_ANNOTATOR; AB_BEGINTIME; AB_CLASS; AB_CONFIDENCE; AB_DATETIME; AB_ENDTIME; AB_ID; AB_METADATA; AB_N; AB_SPEAKER; AB_SRC; AB_TAG; AB_TEXTCLASS] 0%N 0%N None true true false false false false None true true false false false
  | ET_SemanticRolesLayer => (* line 2035 *)
      mkProps "semroles" (Some AT_SEMROLE) [AcceptElementType ET_Comment; AcceptElementType ET_Correction; AcceptElementType ET_Description; AcceptElementType ET_ForeignData; AcceptElementType ET_Predicate; AcceptElementType ET_SemanticRole] [] [] [AB_ID; AB_TAG] 0%N 0%N None false false false false false false None true false false true false
  | ET_SenseAnnotation => (* line 2060 *)
      mkProps "sense" (Some AT_SENSE) [AcceptElementType ET_Comment; AcceptElementType ET_Description; AcceptElementType ET_Feature; AcceptElementType ET_ForeignData; AcceptElementType ET_Metric; AcceptElementType ET_SynsetFeature] [] [AB_CLASS] [AB_ANNOTATOR; AB_BEGINTIME; AB_CLASS; AB_CONFIDENCE; AB_DATETIME; AB_ENDTIME; AB_ID; AB_METADATA; AB_N; AB_SPEAKER; AB_SRC; AB_TAG; AB_TEXTCLASS] 0%N 0%N None false false false false false false None true true false false false
  | ET_Sentence => (* line 2086 *)
      mkProps "s" (Some AT_SENTENCE) [AcceptElementGroup EG_Layer; AcceptElementGroup EG_Inline; AcceptElementType ET_Alternative; AcceptElementType ET_AlternativeLayers; AcceptElementType ET_Comment; AcceptElementType ET_Correction; AcceptElementType ET_Description; AcceptElementType ET_Entry; AcceptElementType ET_Event; AcceptElementType ET_Example; AcceptElementType ET_External; AcceptElementType ET_Feature; AcceptElementType ET_ForeignData; AcceptElementType ET_Gap; AcceptElementType ET_Hiddenword; AcceptElementType ET_Linebreak; AcceptElementType ET_Metric; AcceptElementType ET_Note; AcceptElementType ET_Part; AcceptElementType ET_PhonContent; AcceptElementType ET_Quote; AcceptElementType ET_Reference; AcceptElementType ET_Relation; AcceptElementType ET_String; AcceptElementType ET_TextContent; AcceptElementType ET_Whitespace; AcceptElementType ET_Word] [] [] [AB_ANNOTATOR; AB_BEGINTIME; AB_CLASS; AB_CONFIDENCE; AB_DATETIME; AB_ENDTIME; AB_ID; AB_METADATA; AB_N; AB_SPACE; AB_SPEAKER; AB_SRC; AB_TAG] 0%N 0%N (Some " ") true true false false false false None true true true false false
  | ET_Sentiment => (* line 2112 *)
      mkProps "sentiment" (Some AT_SENTIMENT) [AcceptElementGroup EG_Inline; AcceptElementType ET_Comment; AcceptElementType ET_Description; AcceptElementType ET_Feature; AcceptElementType ET_ForeignData; AcceptElementType ET_Headspan; AcceptElementType ET_LinkReference; AcceptElementType ET_Metric; AcceptElementType ET_PolarityFeature; AcceptElementType ET_Relation; AcceptElementType ET_Source; AcceptElementType ET_StrengthFeature; AcceptElementType ET_Target; AcceptElementType ET_WordReference] [] [] [AB_ANNOTATOR; AB_BEGINTIME; AB_CLASS; AB_CONFIDENCE; AB_DATETIME; AB_ENDTIME; AB_ID; AB_METADATA; AB_N; AB_SPEAKER; AB_SRC; AB_TAG; AB_TEXTCLASS] 0%N 0%N None true true false false false false None true true false false false
  | ET_SentimentLayer => (* line 2138 *)
      mkProps "sentiments" (Some AT_SENTIMENT) [AcceptElementType ET_Comment; AcceptElementType ET_Correction; AcceptElementType ET_Description; AcceptElementType ET_ForeignData; AcceptElementType ET_Sentiment] [] [] [AB_ID; AB_TAG] 0%N 0%N None false false false false false false None true false false true false
  | ET_SizeFeature => (* line 2163 *)
      mkProps "" None [AcceptElementType ET_Comment; AcceptElementType ET_Description] [] [] [] 0%N 0%N None false false false false false false (Some "size") true true false false false
  | ET_Source => (* line 2189 *)
      mkProps "source" None [AcceptElementGroup EG_Inline; AcceptElementType ET_Comment; AcceptElementType ET_Description; AcceptElementType ET_Feature; AcceptElementType ET_ForeignData; AcceptElementType ET_LinkReference; AcceptElementType ET_Metric; AcceptElementType ET_Relation; AcceptElementType ET_WordReference] [] [] [AB_ANNOTATOR; AB_BEGINTIME; AB_CLASS; AB_CONFIDENCE; AB_DATETIME; AB_ENDTIME; AB_ID; AB_METADATA; AB_N; AB_SPEAKER; AB_SRC; AB_TAG; AB_TEXTCLASS] 1%N 0%N None true true false false false false None true false false false false
  | ET_SpanRelation => (* line 2215 *)
      mkProps "spanrelation" (Some AT_SPANRELATION) [AcceptElementType ET_Comment; AcceptElementType ET_Description; AcceptElementType ET_Feature; AcceptElementType ET_ForeignData; AcceptElementType ET_Metric; AcceptElementType ET_Relation] [] [] [AB_ANNOTATOR; AB_BEGINTIME; AB_CLASS; AB_CONFIDENCE; AB_DATETIME; AB_ENDTIME; AB_ID; AB_METADATA; AB_N; AB_SPEAKER; AB_SRC; AB_TAG] 0%N 0%N None false false false false false false None true true false false false
  | ET_SpanRelationLayer => (* line 2241 *)
      mkProps "spanrelations" (Some AT_SPANRELATION) [AcceptElementType ET_Comment; AcceptElementType ET_Correction; AcceptElementType ET_Description; AcceptElementType ET_ForeignData; AcceptElementType ET_SpanRelation] [] [] [AB_ID; AB_TAG] 0%N 0%N None false false false false false false None true false false true false
  | ET_Speech => (* line 2266 *)
      mkProps "speech" None [AcceptElementGroup EG_Layer; AcceptElementGroup EG_Inline; AcceptElementType ET_Alternative; AcceptElementType ET_AlternativeLayers; AcceptElementType ET_Comment; AcceptElementType ET_Correction; AcceptElementType ET_Description; AcceptElementType ET_Division; AcceptElementType ET_Entry; AcceptElementType ET_Event; AcceptElementType ET_Example; AcceptElementType ET_External; AcceptElementType ET_Feature; AcceptElementType ET_ForeignData; AcceptElementType ET_Gap; AcceptElementType ET_Hiddenword; AcceptElementType ET_List; AcceptElementType ET_Metric; AcceptElementType ET_Note; AcceptElementType ET_Paragraph; AcceptElementType ET_Part; AcceptElementType ET_PhonContent; AcceptElementType ET_Quote; AcceptElementType ET_Reference; AcceptElementType ET_Relation; AcceptElementType ET_Sentence; AcceptElementType ET_String; AcceptElementType ET_TextContent; AcceptElementType ET_Utterance; AcceptElementType ET_Word] [] [] [AB_ANNOTATOR; AB_BEGINTIME; AB_CLASS; AB_CONFIDENCE; AB_DATETIME; AB_ENDTIME; AB_ID; AB_METADATA; AB_N; AB_SPACE; AB_SPEAKER; AB_SRC; AB_TAG] 0%N 0%N (Some (String (Ascii.ascii_of_nat 10) (String (Ascii.ascii_of_nat 10) (String (Ascii.ascii_of_nat 10) (""))))) true true false false false false None true true true false false
  | ET_Statement => (* line 2292 *)
      mkProps "statement" (Some AT_STATEMENT) [AcceptElementGroup EG_Inline; AcceptElementType ET_Comment; AcceptElementType ET_Description; AcceptElementType ET_Feature; AcceptElementType ET_ForeignData; AcceptElementType ET_Headspan; AcceptElementType ET_LinkReference; AcceptElementType ET_Metric; AcceptElementType ET_Relation; AcceptElementType ET_Source; AcceptElementType ET_StatementRelation; AcceptElementType ET_WordReference] [] [] [AB_ANNOTATOR; AB_BEGINTIME; AB_CLASS; AB_CONFIDENCE; AB_DATETIME; AB_ENDTIME; AB_ID; AB_METADATA; AB_N; AB_SPEAKER; AB_SRC; AB_TAG; AB_TEXTCLASS] 0%N 0%N None true true false false false false None true true false false false
  | ET_StatementLayer => (* line 2318 *)
      mkProps "statements" (Some AT_STATEMENT) [AcceptElementType ET_Comment; AcceptElementType ET_Correction; AcceptElementType ET_Description; AcceptElementType ET_ForeignData; AcceptElementType ET_Statement] [] [] [AB_ID; AB_TAG] 0%N 0%N None false false false false false false None true false false true false
  | ET_StatementRelation => (* line 2343 *)
      mkProps "rel" None [AcceptElementGroup EG_Inline; AcceptElementType ET_Comment; AcceptElementType ET_Description; AcceptElementType ET_Feature; AcceptElementType ET_ForeignData; AcceptElementType ET_LinkReference; AcceptElementType ET_Metric; AcceptElementType ET_Relation; AcceptElementType ET_WordReference] [] [] [AB_ANNOTATOR; AB_BEGINTIME; AB_CLASS; AB_CONFIDENCE; AB_DATETIME; AB_ENDTIME; AB_ID; AB_METADATA; AB_N; AB_SPEAKER; AB_SRC; AB_TAG; AB_TEXTCLASS] 1%N 0%N None true true false false false false None true false false false false
  | ET_StrengthFeature => (* line 2369 *)
      mkProps "" None [AcceptElementType ET_Comment; AcceptElementType ET_Description] [] [] [] 0%N 0%N None false false false false false false (Some "strength") true true false false false
  | ET_String => (* line 2395 *)
      mkProps "str" (Some AT_STRING) [AcceptElementGroup EG_Inline; AcceptElementType ET_Comment; AcceptElementType ET_Correction; AcceptElementType ET_Description; AcceptElementType ET_Feature; AcceptElementType ET_ForeignData; AcceptElementType ET_Metric; AcceptElementType ET_PhonContent; AcceptElementType ET_Relation; AcceptElementType ET_TextContent] [] [] [AB_ANNOTATOR; AB_BEGINTIME; AB_CLASS; AB_CONFIDENCE; AB_DATETIME; AB_ENDTIME; AB_ID; AB_METADATA; AB_N; AB_SRC; AB_TAG] 0%N 0%N None true false false false false false None true true false false false
  | ET_StyleFeature => (* line 2421 *)
      mkProps "" None [AcceptElementType ET_Comment; AcceptElementType ET_Description] [] [] [] 0%N 0%N None false false false false false false (Some "style") true true false false false
  | ET_SubjectivityAnnotation => (* line 2447 *)
      mkProps "subjectivity" (Some AT_SUBJECTIVITY) [AcceptElementType ET_Comment; AcceptElementType ET_Description; AcceptElementType ET_Feature; AcceptElementType ET_ForeignData; AcceptElementType ET_Metric] [] [AB_CLASS] [AB_ANNOTATOR; AB_BEGINTIME; AB_CLASS; AB_CONFIDENCE; AB_DATETIME; AB_ENDTIME; AB_ID; AB_METADATA; AB_N; AB_SPEAKER; AB_SRC; AB_TAG; AB_TEXTCLASS] 0%N 1%N None false false false false false false None true true false false false
  | ET_Suggestion => (* line 2473 *)
      mkProps "suggestion" (Some AT_CORRECTION) [AcceptElementGroup EG_Inline; AcceptElementGroup EG_Span; AcceptElementGroup EG_Structure; AcceptElementType ET_Comment; AcceptElementType ET_Correction; AcceptElementType ET_Description; AcceptElementType ET_ForeignData; AcceptElementType ET_Metric; AcceptElementType ET_PhonContent; AcceptElementType ET_String; AcceptElementType ET_TextContent] [] [] [AB_ANNOTATOR; AB_CONFIDENCE; AB_DATETIME; AB_ID; AB_N; AB_TAG] 0%N 0%N None true true false false false false None false false false false false
  | ET_SynsetFeature => (* line 2498 *)
      mkProps "" None [AcceptElementType ET_Comment; AcceptElementType ET_Description] [] [] [] 0%N 0%N None false false false false false false (Some "synset") true true false false false
  | ET_SyntacticUnit => (* line 2524 *)
      mkProps "su" (Some AT_SYNTAX) [AcceptElementGroup EG_Inline; AcceptElementType ET_Comment; AcceptElementType ET_Description; AcceptElementType ET_Feature; AcceptElementType ET_ForeignData; AcceptElementType ET_LinkReference; AcceptElementType ET_Metric; AcceptElementType ET_Relation; AcceptElementType ET_SyntacticUnit; AcceptElementType ET_WordReference] [] [] [AB_ANNOTATOR; AB_BEGINTIME; AB_CLASS; AB_CONFIDENCE; AB_DATETIME; AB_ENDTIME; AB_ID; AB_METADATA; AB_N; AB_SPEAKER; AB_SRC; AB_TAG; AB_TEXTCLASS] 0%N 0%N None true true false false false false None true true false false false
  | ET_SyntaxLayer => (* line 2550 *)
      mkProps "syntax" (Some AT_SYNTAX) [AcceptElementType ET_Comment; AcceptElementType ET_Correction; AcceptElementType ET_Description; AcceptElementType ET_ForeignData; AcceptElementType ET_SyntacticUnit] [] [] [AB_ID; AB_TAG] 0%N 0%N None false false false false false false None true false false true false
  | ET_Table => (* line 2575 *)
      mkProps "table" (Some AT_TABLE) [AcceptElementGroup EG_Layer; AcceptElementGroup EG_Inline; AcceptElementType ET_Alternative; AcceptElementType ET_AlternativeLayers; AcceptElementType ET_Comment; AcceptElementType ET_Correction; AcceptElementType ET_Description; AcceptElementType ET_External; AcceptElementType ET_Feature; AcceptElementType ET_ForeignData; AcceptElementType ET_Linebreak; AcceptElementType ET_Metric; AcceptElementType ET_Part; AcceptElementType ET_Relation; AcceptElementType ET_Row; AcceptElementType ET_TableHead] [] [] [AB_ANNOTATOR; AB_BEGINTIME; AB_CLASS; AB_CONFIDENCE; AB_DATETIME; AB_ENDTIME; AB_ID; AB_METADATA; AB_N; AB_SPACE; AB_SPEAKER; AB_SRC; AB_TAG] 0%N 0%N (Some (String (Ascii.ascii_of_nat 10) (String (Ascii.ascii_of_nat 10) ("")))) true true false false false false None true true true false false
  | ET_TableHead => (* line 2601 *)
      mkProps "tablehead" None [AcceptElementGroup EG_Layer; AcceptElementGroup EG_Inline; AcceptElementType ET_Alternative; AcceptElementType ET_AlternativeLayers; AcceptElementType ET_Comment; AcceptElementType ET_Correction; AcceptElementType ET_Description; AcceptElementType ET_External; AcceptElementType ET_Feature; AcceptElementType ET_ForeignData; AcceptElementType ET_Metric; AcceptElementType ET_Part; AcceptElementType ET_Relation; AcceptElementType ET_Row] [] [] [AB_ANNOTATOR; AB_BEGINTIME; AB_CLASS; AB_CONFIDENCE; AB_DATETIME; AB_ENDTIME; AB_ID; AB_METADATA; AB_N; AB_SPACE; AB_SPEAKER; AB_SRC; AB_TAG] 0%N 0%N (Some (String (Ascii.ascii_of_nat 10) (String (Ascii.ascii_of_nat 10) ("")))) true true false false false false None true true true false false
  | ET_Target => (* line 2627 *)
      mkProps "target" None [AcceptElementGroup EG_Inline; AcceptElementType ET_Comment; AcceptElementType ET_Description; AcceptElementType ET_Feature; AcceptElementType ET_ForeignData; AcceptElementType ET_LinkReference; AcceptElementType ET_Metric; AcceptElementType ET_Relation; AcceptElementType ET_WordReference] [] [] [AB_ANNOTATOR; AB_BEGINTIME; AB_CLASS; AB_CONFIDENCE; AB_DATETIME; AB_ENDTIME; AB_ID; AB_METADATA; AB_N; AB_SPEAKER; AB_SRC; AB_TAG; AB_TEXTCLASS] 1%N 0%N None true true false false false false None true false false false false
  | ET_Term => (* line 2653 *)
      mkProps "term" (Some AT_TERM) [AcceptElementGroup EG_Layer; AcceptElementGroup EG_Inline; AcceptElementType ET_Alternative; AcceptElementType ET_AlternativeLayers; AcceptElementType ET_Comment; AcceptElementType ET_Correction; AcceptElementType ET_Description; AcceptElementType ET_Event; AcceptElementType ET_External; AcceptElementType ET_Feature; AcceptElementType ET_Figure; AcceptElementType ET_ForeignData; AcceptElementType ET_Gap; AcceptElementType ET_Hiddenword; AcceptElementType ET_Linebreak; AcceptElementType ET_List; AcceptElementType ET_Metric; AcceptElementType ET_Paragraph; AcceptElementType ET_Part; AcceptElementType ET_PhonContent; AcceptElementType ET_Reference; AcceptElementType ET_Relation; AcceptElementType ET_Sentence; AcceptElementType ET_String; AcceptElementType ET_Table; AcceptElementType ET_TextContent; AcceptElementType ET_Utterance; AcceptElementType ET_Whitespace; AcceptElementType ET_Word] [] [] [AB_ANNOTATOR; AB_BEGINTIME; AB_CLASS; AB_CONFIDENCE; AB_DATETIME; AB_ENDTIME; AB_ID; AB_METADATA; AB_N; AB_SPACE; AB_SPEAKER; AB_SRC; AB_TAG] 0%N 0%N (Some (String (Ascii.ascii_of_nat 10) (String (Ascii.ascii_of_nat 10) ("")))) true true false false false false None true true true false false
  | ET_Text => (* line 2679 *)
      mkProps "text" None [AcceptElementGroup EG_Layer; AcceptElementGroup EG_Inline; AcceptElementType ET_Alternative; AcceptElementType ET_AlternativeLayers; AcceptElementType ET_Comment; AcceptElementType ET_Correction; AcceptElementType ET_Description; AcceptElementType ET_Division; AcceptElementType ET_Entry; AcceptElementType ET_Event; AcceptElementType ET_Example; AcceptElementType ET_External; AcceptElementType ET_Feature; AcceptElementType ET_Figure; AcceptElementType ET_ForeignData; AcceptElementType ET_Gap; AcceptElementType ET_Hiddenword; AcceptElementType ET_Linebreak; AcceptElementType ET_List; AcceptElementType ET_Metric; AcceptElementType ET_Note; AcceptElementType ET_Paragraph; AcceptElementType ET_Part; AcceptElementType ET_PhonContent; AcceptElementType ET_Quote; AcceptElementType ET_Reference; AcceptElementType ET_Relation; AcceptElementType ET_Sentence; AcceptElementType ET_String; AcceptElementType ET_Table; AcceptElementType ET_TextContent; AcceptElementType ET_Whitespace; AcceptElementType ET_Word] [] [] [AB_ANNOTATOR; AB_BEGINTIME; AB_CLASS; AB_CONFIDENCE; AB_DATETIME; AB_ENDTIME; AB_ID; AB_METADATA; AB_N; AB_SPACE; AB_SPEAKER; AB_SRC; AB_TAG] 0%N 0%N (Some (String (Ascii.ascii_of_nat 10) (String (Ascii.ascii_of_nat 10) (String (Ascii.ascii_of_nat 10) (""))))) true true false false false false None true true true false false
  | ET_TextContent => (* line 2705 *)
      mkProps "t" (Some AT_TEXT) [AcceptElementGroup EG_TextMarkup; AcceptElementType ET_Comment; AcceptElementType ET_Description; AcceptElementType ET_Feature; AcceptElementType ET_Linebreak] [] [] [AB_ANNOTATOR; AB_CLASS; AB_CONFIDENCE; AB_DATETIME; AB_METADATA; AB_TAG] 0%N 0%N None true false false true true false None true true false false false
  | ET_TextMarkupCorrection => (* line 2731 *)
      mkProps "t-correction" (Some AT_CORRECTION) [AcceptElementGroup EG_TextMarkup; AcceptElementType ET_Comment; AcceptElementType ET_Description; AcceptElementType ET_Feature; AcceptElementType ET_Linebreak] [] [] [AB_ANNOTATOR; AB_BEGINTIME; AB_CLASS; AB_CONFIDENCE; AB_DATETIME; AB_ENDTIME; AB_ID; AB_METADATA; AB_N; AB_SPEAKER; AB_SRC; AB_TAG] 0%N 0%N (Some "") true false false true true false None true false false false false
  | ET_TextMarkupError => (* line 2756 *)
      mkProps "t-error" (Some AT_ERRORDETECTION) [AcceptElementGroup EG_TextMarkup; AcceptElementType ET_Comment; AcceptElementType ET_Description; AcceptElementType ET_Feature; AcceptElementType ET_Linebreak] [] [] [AB_ANNOTATOR; AB_BEGINTIME; AB_CLASS; AB_CONFIDENCE; AB_DATETIME; AB_ENDTIME; AB_ID; AB_METADATA; AB_N; AB_SPEAKER; AB_SRC; AB_TAG] 0%N 0%N (Some "") true false false true true false None true false false false false
  | ET_TextMarkupGap => (* line 2781 *)
      mkProps "t-gap" (Some AT_GAP) [AcceptElementGroup EG_TextMarkup; AcceptElementType ET_Comment; AcceptElementType ET_Description; AcceptElementType ET_Feature; AcceptElementType ET_Linebreak] [] [] [AB_ANNOTATOR; AB_BEGINTIME; AB_CLASS; AB_CONFIDENCE; AB_DATETIME; AB_ENDTIME; AB_ID; AB_METADATA; AB_N; AB_SPEAKER; AB_SRC; AB_TAG] 0%N 0%N (Some "") true false false true true false None true false false false false
  | ET_TextMarkupHSpace => (* line 2806 *)
      mkProps "t-hspace" (Some AT_HSPACE) [AcceptElementGroup EG_TextMarkup; AcceptElementType ET_Comment; AcceptElementType ET_Description; AcceptElementType ET_Feature; AcceptElementType ET_Linebreak] [] [] [AB_ANNOTATOR; AB_BEGINTIME; AB_CLASS; AB_CONFIDENCE; AB_DATETIME; AB_ENDTIME; AB_ID; AB_METADATA; AB_N; AB_SPEAKER; AB_SRC; AB_TAG] 0%N 0%N (Some "") true false false true true false None true false false false false
  | ET_TextMarkupLanguage => (* line 2831 *)
      mkProps "t-lang" (Some AT_LANG) [AcceptElementGroup EG_TextMarkup; AcceptElementType ET_Comment; AcceptElementType ET_Description; AcceptElementType ET_Feature; AcceptElementType ET_Linebreak] [] [] [AB_ANNOTATOR; AB_BEGINTIME; AB_CLASS; AB_CONFIDENCE; AB_DATETIME; AB_ENDTIME; AB_ID; AB_METADATA; AB_N; AB_SPEAKER; AB_SRC; AB_TAG] 0%N 0%N (Some "") true false false true true false None true false false false false
  | ET_TextMarkupReference => (* line 2856 *)
      mkProps "t-ref" (Some AT_REFERENCE) [AcceptElementGroup EG_TextMarkup; AcceptElementType ET_Comment; AcceptElementType ET_Description; AcceptElementType ET_Feature; AcceptElementType ET_Linebreak] [] [] [AB_ANNOTATOR; AB_BEGINTIME; AB_CLASS; AB_CONFIDENCE; AB_DATETIME; AB_ENDTIME; AB_ID; AB_METADATA; AB_N; AB_SPEAKER; AB_SRC; AB_TAG] 0%N 0%N (Some "") true false false true true false None true false false false false
  | ET_TextMarkupString => (* line 2881 *)
      mkProps "t-str" (Some AT_STRING) [AcceptElementGroup EG_TextMarkup; AcceptElementType ET_Comment; AcceptElementType ET_Description; AcceptElementType ET_Feature; AcceptElementType ET_Linebreak] [] [] [AB_ANNOTATOR; AB_BEGINTIME; AB_CLASS; AB_CONFIDENCE; AB_DATETIME; AB_ENDTIME; AB_ID; AB_METADATA; AB_N; AB_SPEAKER; AB_SRC; AB_TAG] 0%N 0%N (Some "") true false false true true false None true false false false false
  | ET_TextMarkupStyle => (* line 2906 *)
      mkProps "t-style" (Some AT_STYLE) [AcceptElementGroup EG_TextMarkup; AcceptElementType ET_Comment; AcceptElementType ET_Description; AcceptElementType ET_Feature; AcceptElementType ET_FontFeature; AcceptElementType ET_Linebreak; AcceptElementType ET_SizeFeature] [] [] [AB_ANNOTATOR; AB_BEGINTIME; AB_CLASS; AB_CONFIDENCE; AB_DATETIME; AB_ENDTIME; AB_ID; AB_METADATA; AB_N; AB_SPEAKER; AB_SRC; AB_TAG] 0%N 0%N (Some "") true false false true true false None true true false false false
  | ET_TextMarkupWhitespace => (* line 2931 *)
      mkProps "t-whitespace" (Some AT_WHITESPACE) [AcceptElementGroup EG_TextMarkup; AcceptElementType ET_Comment; AcceptElementType ET_Description; AcceptElementType ET_Feature; AcceptElementType ET_Linebreak] [] [] [AB_ANNOTATOR; AB_BEGINTIME; AB_CLASS; AB_CONFIDENCE; AB_DATETIME; AB_ENDTIME; AB_ID; AB_METADATA; AB_N; AB_SPEAKER; AB_SRC; AB_TAG] 0%N 0%N (Some "") true false false true true false None true false false false false
  | ET_TimeFeature => (* line 2956 *)
      mkProps "" None [AcceptElementType ET_Comment; AcceptElementType ET_Description] [] [] [] 0%N 0%N None false false false false false false (Some "time") true true false false false
  | ET_TimeSegment => (* line 2982 *)
      mkProps "timesegment" (Some AT_TIMESEGMENT) [AcceptElementGroup EG_Inline; AcceptElementType ET_ActorFeature; AcceptElementType ET_BegindatetimeFeature; AcceptElementType ET_Comment; AcceptElementType ET_Description; AcceptElementType ET_EnddatetimeFeature; AcceptElementType ET_Feature; AcceptElementType ET_ForeignData; AcceptElementType ET_LinkReference; AcceptElementType ET_Metric; AcceptElementType ET_Relation; AcceptElementType ET_WordReference] [] [] [AB_ANNOTATOR; AB_BEGINTIME; AB_CLASS; AB_CONFIDENCE; AB_DATETIME; AB_ENDTIME; AB_ID; AB_METADATA; AB_N; AB_SPEAKER; AB_SRC; AB_TAG; AB_TEXTCLASS] 0%N 0%N None true true false false false false None true true false false false
  | ET_TimingLayer => (* line 3008 *)
      mkProps "timing" (Some AT_TIMESEGMENT) [AcceptElementType ET_Comment; AcceptElementType ET_Correction; AcceptElementType ET_Description; AcceptElementType ET_ForeignData; AcceptElementType ET_TimeSegment] [] [] [AB_ID; AB_TAG] 0%N 0%N None false false false false false false None true false false true false
  | ET_Utterance => (* line 3033 *)
      mkProps "utt" (Some AT_UTTERANCE) [AcceptElementGroup EG_Layer; AcceptElementGroup EG_Inline; AcceptElementType ET_Alternative; AcceptElementType ET_AlternativeLayers; AcceptElementType ET_Comment; AcceptElementType ET_Correction; AcceptElementType ET_Description; AcceptElementType ET_External; AcceptElementType ET_Feature; AcceptElementType ET_ForeignData; AcceptElementType ET_Gap; AcceptElementType ET_Hiddenword; AcceptElementType ET_Metric; AcceptElementType ET_Note; AcceptElementType ET_Part; AcceptElementType ET_PhonContent; AcceptElementType ET_Quote; AcceptElementType ET_Reference; AcceptElementType ET_Relation; AcceptElementType ET_Sentence; AcceptElementType ET_String; AcceptElementType ET_TextContent; AcceptElementType ET_Word] [] [] [AB_ANNOTATOR; AB_BEGINTIME; AB_CLASS; AB_CONFIDENCE; AB_DATETIME; AB_ENDTIME; AB_ID; AB_METADATA; AB_N; AB_SPACE; AB_SPEAKER; AB_SRC; AB_TAG] 0%N 0%N (Some " ") true true false false false false None true true true false false
  | ET_ValueFeature => (* line 3059 *)
      mkProps "" None [AcceptElementType ET_Comment; AcceptElementType ET_Description] [] [] [] 0%N 0%N None false false false false false false (Some "value") true true false false false
  | ET_Whitespace => (* line 3085 *)
      mkProps "whitespace" (Some AT_WHITESPACE) [AcceptElementGroup EG_Layer; AcceptElementType ET_Alternative; AcceptElementType ET_AlternativeLayers; AcceptElementType ET_Comment; AcceptElementType ET_Correction; AcceptElementType ET_Description; AcceptElementType ET_External; AcceptElementType ET_Feature; AcceptElementType ET_ForeignData; AcceptElementType ET_Metric; AcceptElementType ET_Part; AcceptElementType ET_Relation] [] [] [AB_ANNOTATOR; AB_BEGINTIME; AB_CLASS; AB_CONFIDENCE; AB_DATETIME; AB_ENDTIME; AB_ID; AB_METADATA; AB_N; AB_SPACE; AB_SPEAKER; AB_SRC; AB_TAG] 0%N 0%N (Some "") true true false false false false None true true true false false
  | ET_Word => (* line 3111 *)
      mkProps "w" (Some AT_TOKEN) [AcceptElementGroup EG_Layer; AcceptElementGroup EG_Inline; AcceptElementType ET_Alternative; AcceptElementType ET_AlternativeLayers; AcceptElementType ET_Comment; AcceptElementType ET_Correction; AcceptElementType ET_Description; AcceptElementType ET_External; AcceptElementType ET_Feature; AcceptElementType ET_ForeignData; AcceptElementType ET_Metric; AcceptElementType ET_Part; AcceptElementType ET_PhonContent; AcceptElementType ET_Reference; AcceptElementType ET_Relation; AcceptElementType ET_String; AcceptElementType ET_TextContent] [] [] [AB_ANNOTATOR; AB_BEGINTIME; AB_CLASS; AB_CONFIDENCE; AB_DATETIME; AB_ENDTIME; AB_ID; AB_METADATA; AB_N; AB_SPACE; AB_SPEAKER; AB_SRC; AB_TAG; AB_TEXTCLASS] 0%N 0%N (Some " ") true true false false false false None true true true false true
  | ET_WordReference => (* line 3137 *)
      mkProps "wref" None [AcceptElementType ET_Comment; AcceptElementType ET_Description] [] [] [AB_IDREF; AB_TAG] 0%N 0%N None false false false false false false None true true false false false
  end.
