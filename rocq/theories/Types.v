(* GENERATED by tools/gen_types.py from /repo/src/types.rs and attrib.rs. Do not edit. *)
From Coq Require Import String List Bool Arith.
Import ListNotations.
Open Scope string_scope.

(* types.rs:30  enum ElementType *)
Inductive ElementType : Set :=
  | ET_ActorFeature
  | ET_Alternative
  | ET_AlternativeLayers
  | ET_BegindatetimeFeature
  | ET_Caption
  | ET_Cell
  | ET_Chunk
  | ET_ChunkingLayer
  | ET_Comment
  | ET_Content
  | ET_CoreferenceChain
  | ET_CoreferenceLayer
  | ET_CoreferenceLink
  | ET_Correction
  | ET_Cue
  | ET_Current
  | ET_Definition
  | ET_DependenciesLayer
  | ET_Dependency
  | ET_DependencyDependent
  | ET_Description
  | ET_Division
  | ET_DomainAnnotation
  | ET_EnddatetimeFeature
  | ET_EntitiesLayer
  | ET_Entity
  | ET_Entry
  | ET_ErrorDetection
  | ET_Event
  | ET_Example
  | ET_External
  | ET_Feature
  | ET_Figure
  | ET_FontFeature
  | ET_ForeignData
  | ET_FunctionFeature
  | ET_Gap
  | ET_Head
  | ET_HeadFeature
  | ET_Headspan
  | ET_Hiddenword
  | ET_Hyphbreak
  | ET_Label
  | ET_LangAnnotation
  | ET_LemmaAnnotation
  | ET_LevelFeature
  | ET_Linebreak
  | ET_LinkReference
  | ET_List
  | ET_ListItem
  | ET_Metric
  | ET_ModalitiesLayer
  | ET_Modality
  | ET_ModalityFeature
  | ET_Morpheme
  | ET_MorphologyLayer
  | ET_New
  | ET_Note
  | ET_Observation
  | ET_ObservationLayer
  | ET_Original
  | ET_Paragraph
  | ET_Part
  | ET_PhonContent
  | ET_Phoneme
  | ET_PhonologyLayer
  | ET_PolarityFeature
  | ET_PosAnnotation
  | ET_Predicate
  | ET_Quote
  | ET_Reference
  | ET_Relation
  | ET_Row
  | ET_Scope
  | ET_SemanticRole
  | ET_SemanticRolesLayer
  | ET_SenseAnnotation
  | ET_Sentence
  | ET_Sentiment
  | ET_SentimentLayer
  | ET_SizeFeature
  | ET_Source
  | ET_SpanRelation
  | ET_SpanRelationLayer
  | ET_Speech
  | ET_Statement
  | ET_StatementLayer
  | ET_StatementRelation
  | ET_StrengthFeature
  | ET_String
  | ET_StyleFeature
  | ET_SubjectivityAnnotation
  | ET_Suggestion
  | ET_SynsetFeature
  | ET_SyntacticUnit
  | ET_SyntaxLayer
  | ET_Table
  | ET_TableHead
  | ET_Target
  | ET_Term
  | ET_Text
  | ET_TextContent
  | ET_TextMarkupCorrection
  | ET_TextMarkupError
  | ET_TextMarkupGap
  | ET_TextMarkupHSpace
  | ET_TextMarkupLanguage
  | ET_TextMarkupReference
  | ET_TextMarkupString
  | ET_TextMarkupStyle
  | ET_TextMarkupWhitespace
  | ET_TimeFeature
  | ET_TimeSegment
  | ET_TimingLayer
  | ET_Utterance
  | ET_ValueFeature
  | ET_Whitespace
  | ET_Word
  | ET_WordReference.
Definition all_et : list ElementType := [ET_ActorFeature; ET_Alternative; ET_AlternativeLayers; ET_BegindatetimeFeature; ET_Caption; ET_Cell; ET_Chunk; ET_ChunkingLayer; ET_Comment; ET_Content; ET_CoreferenceChain; ET_CoreferenceLayer; ET_CoreferenceLink; ET_Correction; ET_Cue; ET_Current; ET_Definition; ET_DependenciesLayer; ET_Dependency; ET_DependencyDependent; ET_Description; ET_Division; ET_DomainAnnotation; ET_EnddatetimeFeature; ET_EntitiesLayer; ET_Entity; ET_Entry; ET_ErrorDetection; ET_Event; ET_Example; ET_External; ET_Feature; ET_Figure; ET_FontFeature; ET_ForeignData; ET_FunctionFeature; ET_Gap; ET_Head; ET_HeadFeature; ET_Headspan; ET_Hiddenword; ET_Hyphbreak; ET_Label; ET_LangAnnotation; ET_LemmaAnnotation; ET_LevelFeature; ET_Linebreak; ET_LinkReference; ET_List; ET_ListItem; ET_Metric; ET_ModalitiesLayer; ET_Modality; ET_ModalityFeature; ET_Morpheme; ET_MorphologyLayer; ET_New; ET_Note; ET_Observation; ET_ObservationLayer; ET_Original; ET_Paragraph; ET_Part; ET_PhonContent; ET_Phoneme; ET_PhonologyLayer; ET_PolarityFeature; ET_PosAnnotation; ET_Predicate; ET_Quote; ET_Reference; ET_Relation; ET_Row; ET_Scope; ET_SemanticRole; ET_SemanticRolesLayer; ET_SenseAnnotation; ET_Sentence; ET_Sentiment; ET_SentimentLayer; ET_SizeFeature; ET_Source; ET_SpanRelation; ET_SpanRelationLayer; ET_Speech; ET_Statement; ET_StatementLayer; ET_StatementRelation; ET_StrengthFeature; ET_String; ET_StyleFeature; ET_SubjectivityAnnotation; ET_Suggestion; ET_SynsetFeature; ET_SyntacticUnit; ET_SyntaxLayer; ET_Table; ET_TableHead; ET_Target; ET_Term; ET_Text; ET_TextContent; ET_TextMarkupCorrection; ET_TextMarkupError; ET_TextMarkupGap; ET_TextMarkupHSpace; ET_TextMarkupLanguage; ET_TextMarkupReference; ET_TextMarkupString; ET_TextMarkupStyle; ET_TextMarkupWhitespace; ET_TimeFeature; ET_TimeSegment; ET_TimingLayer; ET_Utterance; ET_ValueFeature; ET_Whitespace; ET_Word; ET_WordReference].
(* discriminant (declaration order), used for the derived PartialEq *)
Definition et_idx (x : ElementType) : nat :=
  match x with
  | ET_ActorFeature => 0
  | ET_Alternative => 1
  | ET_AlternativeLayers => 2
  | ET_BegindatetimeFeature => 3
  | ET_Caption => 4
  | ET_Cell => 5
  | ET_Chunk => 6
  | ET_ChunkingLayer => 7
  | ET_Comment => 8
  | ET_Content => 9
  | ET_CoreferenceChain => 10
  | ET_CoreferenceLayer => 11
  | ET_CoreferenceLink => 12
  | ET_Correction => 13
  | ET_Cue => 14
  | ET_Current => 15
  | ET_Definition => 16
  | ET_DependenciesLayer => 17
  | ET_Dependency => 18
  | ET_DependencyDependent => 19
  | ET_Description => 20
  | ET_Division => 21
  | ET_DomainAnnotation => 22
  | ET_EnddatetimeFeature => 23
  | ET_EntitiesLayer => 24
  | ET_Entity => 25
  | ET_Entry => 26
  | ET_ErrorDetection => 27
  | ET_Event => 28
  | ET_Example => 29
  | ET_External => 30
  | ET_Feature => 31
  | ET_Figure => 32
  | ET_FontFeature => 33
  | ET_ForeignData => 34
  | ET_FunctionFeature => 35
  | ET_Gap => 36
  | ET_Head => 37
  | ET_HeadFeature => 38
  | ET_Headspan => 39
  | ET_Hiddenword => 40
  | ET_Hyphbreak => 41
  | ET_Label => 42
  | ET_LangAnnotation => 43
  | ET_LemmaAnnotation => 44
  | ET_LevelFeature => 45
  | ET_Linebreak => 46
  | ET_LinkReference => 47
  | ET_List => 48
  | ET_ListItem => 49
  | ET_Metric => 50
  | ET_ModalitiesLayer => 51
  | ET_Modality => 52
  | ET_ModalityFeature => 53
  | ET_Morpheme => 54
  | ET_MorphologyLayer => 55
  | ET_New => 56
  | ET_Note => 57
  | ET_Observation => 58
  | ET_ObservationLayer => 59
  | ET_Original => 60
  | ET_Paragraph => 61
  | ET_Part => 62
  | ET_PhonContent => 63
  | ET_Phoneme => 64
  | ET_PhonologyLayer => 65
  | ET_PolarityFeature => 66
  | ET_PosAnnotation => 67
  | ET_Predicate => 68
  | ET_Quote => 69
  | ET_Reference => 70
  | ET_Relation => 71
  | ET_Row => 72
  | ET_Scope => 73
  | ET_SemanticRole => 74
  | ET_SemanticRolesLayer => 75
  | ET_SenseAnnotation => 76
  | ET_Sentence => 77
  | ET_Sentiment => 78
  | ET_SentimentLayer => 79
  | ET_SizeFeature => 80
  | ET_Source => 81
  | ET_SpanRelation => 82
  | ET_SpanRelationLayer => 83
  | ET_Speech => 84
  | ET_Statement => 85
  | ET_StatementLayer => 86
  | ET_StatementRelation => 87
  | ET_StrengthFeature => 88
  | ET_String => 89
  | ET_StyleFeature => 90
  | ET_SubjectivityAnnotation => 91
  | ET_Suggestion => 92
  | ET_SynsetFeature => 93
  | ET_SyntacticUnit => 94
  | ET_SyntaxLayer => 95
  | ET_Table => 96
  | ET_TableHead => 97
  | ET_Target => 98
  | ET_Term => 99
  | ET_Text => 100
  | ET_TextContent => 101
  | ET_TextMarkupCorrection => 102
  | ET_TextMarkupError => 103
  | ET_TextMarkupGap => 104
  | ET_TextMarkupHSpace => 105
  | ET_TextMarkupLanguage => 106
  | ET_TextMarkupReference => 107
  | ET_TextMarkupString => 108
  | ET_TextMarkupStyle => 109
  | ET_TextMarkupWhitespace => 110
  | ET_TimeFeature => 111
  | ET_TimeSegment => 112
  | ET_TimingLayer => 113
  | ET_Utterance => 114
  | ET_ValueFeature => 115
  | ET_Whitespace => 116
  | ET_Word => 117
  | ET_WordReference => 118
  end.
(* derived PartialEq of ElementType *)
Definition et_eqb (a b : ElementType) : bool := Nat.eqb (et_idx a) (et_idx b).

(* types.rs:35  enum ElementGroup *)
Inductive ElementGroup : Set :=
  | EG_Layer
  | EG_Content
  | EG_CorrectionChild
  | EG_HigherOrder
  | EG_Inline
  | EG_Span
  | EG_SpanRole
  | EG_Structure
  | EG_Subtoken
  | EG_TextMarkup
  | EG_Feature.
Definition all_eg : list ElementGroup := [EG_Layer; EG_Content; EG_CorrectionChild; EG_HigherOrder; EG_Inline; EG_Span; EG_SpanRole; EG_Structure; EG_Subtoken; EG_TextMarkup; EG_Feature].
(* discriminant (declaration order), used for the derived PartialEq *)
Definition eg_idx (x : ElementGroup) : nat :=
  match x with
  | EG_Layer => 0
  | EG_Content => 1
  | EG_CorrectionChild => 2
  | EG_HigherOrder => 3
  | EG_Inline => 4
  | EG_Span => 5
  | EG_SpanRole => 6
  | EG_Structure => 7
  | EG_Subtoken => 8
  | EG_TextMarkup => 9
  | EG_Feature => 10
  end.
(* derived PartialEq of ElementGroup *)
Definition eg_eqb (a b : ElementGroup) : bool := Nat.eqb (eg_idx a) (eg_idx b).

(* types.rs:68  enum AnnotationType *)
Inductive AnnotationType : Set :=
  | AT_TEXT
  | AT_TOKEN
  | AT_DIVISION
  | AT_PARAGRAPH
  | AT_HEAD
  | AT_LIST
  | AT_FIGURE
  | AT_WHITESPACE
  | AT_LINEBREAK
  | AT_SENTENCE
  | AT_POS
  | AT_LEMMA
  | AT_DOMAIN
  | AT_SENSE
  | AT_SYNTAX
  | AT_CHUNKING
  | AT_ENTITY
  | AT_CORRECTION
  | AT_ERRORDETECTION
  | AT_PHON
  | AT_SUBJECTIVITY
  | AT_MORPHOLOGICAL
  | AT_EVENT
  | AT_DEPENDENCY
  | AT_TIMESEGMENT
  | AT_GAP
  | AT_QUOTE
  | AT_NOTE
  | AT_REFERENCE
  | AT_RELATION
  | AT_SPANRELATION
  | AT_COREFERENCE
  | AT_SEMROLE
  | AT_METRIC
  | AT_LANG
  | AT_STRING
  | AT_TABLE
  | AT_STYLE
  | AT_PART
  | AT_UTTERANCE
  | AT_ENTRY
  | AT_TERM
  | AT_DEFINITION
  | AT_EXAMPLE
  | AT_PHONOLOGICAL
  | AT_PREDICATE
  | AT_OBSERVATION
  | AT_SENTIMENT
  | AT_STATEMENT
  | AT_ALTERNATIVE
  | AT_RAWCONTENT
  | AT_COMMENT
  | AT_DESCRIPTION
  | AT_HYPHENATION
  | AT_HIDDENTOKEN
  | AT_MODALITY
  | AT_EXTERNAL
  | AT_HSPACE.
Definition all_at : list AnnotationType := [AT_TEXT; AT_TOKEN; AT_DIVISION; AT_PARAGRAPH; AT_HEAD; AT_LIST; AT_FIGURE; AT_WHITESPACE; AT_LINEBREAK; AT_SENTENCE; AT_POS; AT_LEMMA; AT_DOMAIN; AT_SENSE; AT_SYNTAX; AT_CHUNKING; AT_ENTITY; AT_CORRECTION; AT_ERRORDETECTION; AT_PHON; AT_SUBJECTIVITY; AT_MORPHOLOGICAL; AT_EVENT; AT_DEPENDENCY; AT_TIMESEGMENT; AT_GAP; AT_QUOTE; AT_NOTE; AT_REFERENCE; AT_RELATION; AT_SPANRELATION; AT_COREFERENCE; AT_SEMROLE; AT_METRIC; AT_LANG; AT_STRING; AT_TABLE; AT_STYLE; AT_PART; AT_UTTERANCE; AT_ENTRY; AT_TERM; AT_DEFINITION; AT_EXAMPLE; AT_PHONOLOGICAL; AT_PREDICATE; AT_OBSERVATION; AT_SENTIMENT; AT_STATEMENT; AT_ALTERNATIVE; AT_RAWCONTENT; AT_COMMENT; AT_DESCRIPTION; AT_HYPHENATION; AT_HIDDENTOKEN; AT_MODALITY; AT_EXTERNAL; AT_HSPACE].
(* discriminant (declaration order), used for the derived PartialEq *)
Definition at_idx (x : AnnotationType) : nat :=
  match x with
  | AT_TEXT => 0
  | AT_TOKEN => 1
  | AT_DIVISION => 2
  | AT_PARAGRAPH => 3
  | AT_HEAD => 4
  | AT_LIST => 5
  | AT_FIGURE => 6
  | AT_WHITESPACE => 7
  | AT_LINEBREAK => 8
  | AT_SENTENCE => 9
  | AT_POS => 10
  | AT_LEMMA => 11
  | AT_DOMAIN => 12
  | AT_SENSE => 13
  | AT_SYNTAX => 14
  | AT_CHUNKING => 15
  | AT_ENTITY => 16
  | AT_CORRECTION => 17
  | AT_ERRORDETECTION => 18
  | AT_PHON => 19
  | AT_SUBJECTIVITY => 20
  | AT_MORPHOLOGICAL => 21
  | AT_EVENT => 22
  | AT_DEPENDENCY => 23
  | AT_TIMESEGMENT => 24
  | AT_GAP => 25
  | AT_QUOTE => 26
  | AT_NOTE => 27
  | AT_REFERENCE => 28
  | AT_RELATION => 29
  | AT_SPANRELATION => 30
  | AT_COREFERENCE => 31
  | AT_SEMROLE => 32
  | AT_METRIC => 33
  | AT_LANG => 34
  | AT_STRING => 35
  | AT_TABLE => 36
  | AT_STYLE => 37
  | AT_PART => 38
  | AT_UTTERANCE => 39
  | AT_ENTRY => 40
  | AT_TERM => 41
  | AT_DEFINITION => 42
  | AT_EXAMPLE => 43
  | AT_PHONOLOGICAL => 44
  | AT_PREDICATE => 45
  | AT_OBSERVATION => 46
  | AT_SENTIMENT => 47
  | AT_STATEMENT => 48
  | AT_ALTERNATIVE => 49
  | AT_RAWCONTENT => 50
  | AT_COMMENT => 51
  | AT_DESCRIPTION => 52
  | AT_HYPHENATION => 53
  | AT_HIDDENTOKEN => 54
  | AT_MODALITY => 55
  | AT_EXTERNAL => 56
  | AT_HSPACE => 57
  end.
(* derived PartialEq of AnnotationType *)
Definition at_eqb (a b : AnnotationType) : bool := Nat.eqb (at_idx a) (at_idx b).

(* attrib.rs:21  enum AttribType *)
Inductive AttribType : Set :=
  | AB_NONE
  | AB_ID
  | AB_SET
  | AB_CLASS
  | AB_ANNOTATOR
  | AB_ANNOTATORTYPE
  | AB_CONFIDENCE
  | AB_N
  | AB_DATETIME
  | AB_BEGINTIME
  | AB_ENDTIME
  | AB_SRC
  | AB_SPEAKER
  | AB_TEXTCLASS
  | AB_METADATA
  | AB_IDREF
  | AB_SPACE
  | AB_PROCESSOR
  | AB_HREF
  | AB_FORMAT
  | AB_SUBSET
  | AB_TEXT
  | AB_TYPE
  | AB_AUTH
  | AB_OFFSET
  | AB_REF
  | AB_ORIGINAL
  | AB_LINENR
  | AB_PAGENR
  | AB_NEWPAGE
  | AB_XLINKTYPE
  | AB_TAG.
Definition all_ab : list AttribType := [AB_NONE; AB_ID; AB_SET; AB_CLASS; AB_ANNOTATOR; AB_ANNOTATORTYPE; AB_CONFIDENCE; AB_N; AB_DATETIME; AB_BEGINTIME; AB_ENDTIME; AB_SRC; AB_SPEAKER; AB_TEXTCLASS; AB_METADATA; AB_IDREF; AB_SPACE; AB_PROCESSOR; AB_HREF; AB_FORMAT; AB_SUBSET; AB_TEXT; AB_TYPE; AB_AUTH; AB_OFFSET; AB_REF; AB_ORIGINAL; AB_LINENR; AB_PAGENR; AB_NEWPAGE; AB_XLINKTYPE; AB_TAG].
(* discriminant (declaration order), used for the derived PartialEq *)
Definition ab_idx (x : AttribType) : nat :=
  match x with
  | AB_NONE => 0
  | AB_ID => 1
  | AB_SET => 2
  | AB_CLASS => 3
  | AB_ANNOTATOR => 4
  | AB_ANNOTATORTYPE => 5
  | AB_CONFIDENCE => 6
  | AB_N => 7
  | AB_DATETIME => 8
  | AB_BEGINTIME => 9
  | AB_ENDTIME => 10
  | AB_SRC => 11
  | AB_SPEAKER => 12
  | AB_TEXTCLASS => 13
  | AB_METADATA => 14
  | AB_IDREF => 15
  | AB_SPACE => 16
  | AB_PROCESSOR => 17
  | AB_HREF => 18
  | AB_FORMAT => 19
  | AB_SUBSET => 20
  | AB_TEXT => 21
  | AB_TYPE => 22
  | AB_AUTH => 23
  | AB_OFFSET => 24
  | AB_REF => 25
  | AB_ORIGINAL => 26
  | AB_LINENR => 27
  | AB_PAGENR => 28
  | AB_NEWPAGE => 29
  | AB_XLINKTYPE => 30
  | AB_TAG => 31
  end.
(* derived PartialEq of AttribType *)
Definition ab_eqb (a b : AttribType) : bool := Nat.eqb (ab_idx a) (ab_idx b).

(* types.rs:39-56  ElementGroup::elementtypes *)
Definition group_elementtypes (g : ElementGroup) : list ElementType :=
  match g with
  | EG_Layer => [ET_ChunkingLayer; ET_SpanRelationLayer; ET_CoreferenceLayer; ET_DependenciesLayer; ET_EntitiesLayer; ET_MorphologyLayer; ET_ObservationLayer; ET_PhonologyLayer; ET_SemanticRolesLayer; ET_SentimentLayer; ET_StatementLayer; ET_SyntaxLayer; ET_TimingLayer; ET_ModalitiesLayer]
  | EG_Content => [ET_TextContent; ET_PhonContent; ET_Content]
  | EG_CorrectionChild => [ET_Current; ET_New; ET_Original; ET_Suggestion]
  | EG_HigherOrder => [ET_Relation; ET_Alternative; ET_AlternativeLayers; ET_SpanRelation; ET_Correction; ET_Comment; ET_Description; ET_External; ET_Feature; ET_Metric; ET_String; ET_ForeignData; ET_Gap]
  | EG_Inline => [ET_DomainAnnotation; ET_ErrorDetection; ET_LangAnnotation; ET_LemmaAnnotation; ET_PosAnnotation; ET_SenseAnnotation; ET_SubjectivityAnnotation]
  | EG_Span => [ET_Chunk; ET_CoreferenceChain; ET_Modality; ET_Dependency; ET_Entity; ET_Observation; ET_Predicate; ET_SemanticRole; ET_Sentiment; ET_Statement; ET_SyntacticUnit; ET_TimeSegment]
  | EG_SpanRole => [ET_CoreferenceLink; ET_DependencyDependent; ET_Headspan; ET_StatementRelation; ET_Source; ET_Target; ET_Cue; ET_Scope]
  | EG_Structure => [ET_Caption; ET_Cell; ET_Definition; ET_Division; ET_Entry; ET_Event; ET_Example; ET_Figure; ET_Head; ET_Hiddenword; ET_Label; ET_Linebreak; ET_List; ET_ListItem; ET_Note; ET_Paragraph; ET_Part; ET_Quote; ET_Reference; ET_Row; ET_Sentence; ET_Speech; ET_Table; ET_TableHead; ET_Term; ET_Text; ET_Utterance; ET_Whitespace; ET_Word]
  | EG_Subtoken => [ET_Morpheme; ET_Phoneme]
  | EG_TextMarkup => [ET_TextMarkupCorrection; ET_TextMarkupError; ET_TextMarkupGap; ET_TextMarkupString; ET_TextMarkupStyle; ET_Hyphbreak; ET_TextMarkupReference; ET_TextMarkupWhitespace; ET_TextMarkupHSpace; ET_TextMarkupLanguage]
  | EG_Feature => [ET_ActorFeature; ET_BegindatetimeFeature; ET_EnddatetimeFeature; ET_FunctionFeature; ET_HeadFeature; ET_LevelFeature; ET_ModalityFeature; ET_PolarityFeature; ET_StrengthFeature; ET_StyleFeature; ET_SynsetFeature; ET_TimeFeature; ET_ValueFeature; ET_FontFeature; ET_SizeFeature]
  end.

(* types.rs:59-61  ElementGroup::contains *)
Definition group_contains (g : ElementGroup) (t : ElementType) : bool :=
  existsb (et_eqb t) (group_elementtypes g).

(* types.rs:72-136 *)
Definition at_as_str (x : AnnotationType) : string :=
  match x with
  | AT_ALTERNATIVE => "alternative"
  | AT_CHUNKING => "chunking"
  | AT_COMMENT => "comment"
  | AT_RAWCONTENT => "rawcontent"
  | AT_COREFERENCE => "coreference"
  | AT_CORRECTION => "correction"
  | AT_DEFINITION => "definition"
  | AT_DEPENDENCY => "dependency"
  | AT_DESCRIPTION => "description"
  | AT_DIVISION => "division"
  | AT_DOMAIN => "domain"
  | AT_ENTITY => "entity"
  | AT_ENTRY => "entry"
  | AT_ERRORDETECTION => "errordetection"
  | AT_EVENT => "event"
  | AT_EXAMPLE => "example"
  | AT_EXTERNAL => "external"
  | AT_FIGURE => "figure"
  | AT_GAP => "gap"
  | AT_HEAD => "head"
  | AT_HIDDENTOKEN => "hiddentoken"
  | AT_HYPHENATION => "hyphenation"
  | AT_LANG => "lang"
  | AT_LEMMA => "lemma"
  | AT_LINEBREAK => "linebreak"
  | AT_LIST => "list"
  | AT_METRIC => "metric"
  | AT_MODALITY => "modality"
  | AT_MORPHOLOGICAL => "morphological"
  | AT_NOTE => "note"
  | AT_OBSERVATION => "observation"
  | AT_PARAGRAPH => "paragraph"
  | AT_PART => "part"
  | AT_PHON => "phon"
  | AT_PHONOLOGICAL => "phonological"
  | AT_POS => "pos"
  | AT_PREDICATE => "predicate"
  | AT_QUOTE => "quote"
  | AT_REFERENCE => "reference"
  | AT_RELATION => "relation"
  | AT_SEMROLE => "semrole"
  | AT_SENSE => "sense"
  | AT_SENTENCE => "sentence"
  | AT_SENTIMENT => "sentiment"
  | AT_SPANRELATION => "spanrelation"
  | AT_STATEMENT => "statement"
  | AT_STRING => "string"
  | AT_SUBJECTIVITY => "subjectivity"
  | AT_SYNTAX => "syntax"
  | AT_TABLE => "table"
  | AT_TERM => "term"
  | AT_TEXT => "text"
  | AT_HSPACE => "hspace"
  | AT_STYLE => "style"
  | AT_WHITESPACE => "whitespace"
  | AT_TIMESEGMENT => "timesegment"
  | AT_UTTERANCE => "utterance"
  | AT_TOKEN => "token"
  end.

(* types.rs:138-203  the arms of AnnotationType::from_str, in order *)
Definition at_names : list (string * AnnotationType) :=
  [ ("alternative", AT_ALTERNATIVE);
    ("chunking", AT_CHUNKING);
    ("comment", AT_COMMENT);
    ("rawcontent", AT_RAWCONTENT);
    ("coreference", AT_COREFERENCE);
    ("correction", AT_CORRECTION);
    ("definition", AT_DEFINITION);
    ("dependency", AT_DEPENDENCY);
    ("description", AT_DESCRIPTION);
    ("division", AT_DIVISION);
    ("domain", AT_DOMAIN);
    ("entity", AT_ENTITY);
    ("entry", AT_ENTRY);
    ("errordetection", AT_ERRORDETECTION);
    ("event", AT_EVENT);
    ("example", AT_EXAMPLE);
    ("external", AT_EXTERNAL);
    ("figure", AT_FIGURE);
    ("gap", AT_GAP);
    ("head", AT_HEAD);
    ("hiddentoken", AT_HIDDENTOKEN);
    ("hyphenation", AT_HYPHENATION);
    ("lang", AT_LANG);
    ("lemma", AT_LEMMA);
    ("linebreak", AT_LINEBREAK);
    ("list", AT_LIST);
    ("metric", AT_METRIC);
    ("modality", AT_MODALITY);
    ("morphological", AT_MORPHOLOGICAL);
    ("note", AT_NOTE);
    ("observation", AT_OBSERVATION);
    ("paragraph", AT_PARAGRAPH);
    ("part", AT_PART);
    ("phon", AT_PHON);
    ("phonological", AT_PHONOLOGICAL);
    ("pos", AT_POS);
    ("predicate", AT_PREDICATE);
    ("quote", AT_QUOTE);
    ("reference", AT_REFERENCE);
    ("relation", AT_RELATION);
    ("semrole", AT_SEMROLE);
    ("sense", AT_SENSE);
    ("sentence", AT_SENTENCE);
    ("sentiment", AT_SENTIMENT);
    ("spanrelation", AT_SPANRELATION);
    ("statement", AT_STATEMENT);
    ("string", AT_STRING);
    ("subjectivity", AT_SUBJECTIVITY);
    ("syntax", AT_SYNTAX);
    ("table", AT_TABLE);
    ("term", AT_TERM);
    ("text", AT_TEXT);
    ("hspace", AT_HSPACE);
    ("style", AT_STYLE);
    ("whitespace", AT_WHITESPACE);
    ("timesegment", AT_TIMESEGMENT);
    ("utterance", AT_UTTERANCE);
    ("token", AT_TOKEN) ].

(* lookup of a string in the arms of a match on string literals: the first equal literal wins *)
Fixpoint str_match {A} (l : list (string * A)) (s : string) : option A :=
  match l with
  | [] => None
  | (k, v) :: r => if String.eqb s k then Some v else str_match r s
  end.

Definition at_from_str (s : string) : option AnnotationType := str_match at_names s.

(* types.rs:205-269 *)
Definition at_as_element_str (x : AnnotationType) : string :=
  match x with
  | AT_ALTERNATIVE => "alt"
  | AT_CHUNKING => "chunk"
  | AT_COMMENT => "comment"
  | AT_RAWCONTENT => "content"
  | AT_COREFERENCE => "coreferencechain"
  | AT_CORRECTION => "correction"
  | AT_DEFINITION => "def"
  | AT_DEPENDENCY => "dependency"
  | AT_DESCRIPTION => "desc"
  | AT_DIVISION => "div"
  | AT_DOMAIN => "domain"
  | AT_ENTITY => "entity"
  | AT_ENTRY => "entry"
  | AT_ERRORDETECTION => "errordetection"
  | AT_EVENT => "event"
  | AT_EXAMPLE => "ex"
  | AT_EXTERNAL => "external"
  | AT_FIGURE => "figure"
  | AT_GAP => "gap"
  | AT_HEAD => "head"
  | AT_HIDDENTOKEN => "hiddenw"
  | AT_HYPHENATION => "t-hbr"
  | AT_LANG => "lang"
  | AT_LEMMA => "lemma"
  | AT_LINEBREAK => "br"
  | AT_LIST => "list"
  | AT_METRIC => "metric"
  | AT_MODALITY => "modality"
  | AT_MORPHOLOGICAL => "morpheme"
  | AT_NOTE => "note"
  | AT_OBSERVATION => "observation"
  | AT_PARAGRAPH => "p"
  | AT_PART => "part"
  | AT_PHON => "ph"
  | AT_PHONOLOGICAL => "phoneme"
  | AT_POS => "pos"
  | AT_PREDICATE => "predicate"
  | AT_QUOTE => "quote"
  | AT_REFERENCE => "ref"
  | AT_RELATION => "relation"
  | AT_SEMROLE => "semrole"
  | AT_SENSE => "sense"
  | AT_SENTENCE => "s"
  | AT_SENTIMENT => "sentiment"
  | AT_SPANRELATION => "spanrelation"
  | AT_STATEMENT => "statement"
  | AT_STRING => "str"
  | AT_SUBJECTIVITY => "subjectivity"
  | AT_SYNTAX => "su"
  | AT_TABLE => "table"
  | AT_TERM => "term"
  | AT_TEXT => "t"
  | AT_HSPACE => "t-hspace"
  | AT_STYLE => "t-style"
  | AT_TIMESEGMENT => "timesegment"
  | AT_UTTERANCE => "utt"
  | AT_WHITESPACE => "whitespace"
  | AT_TOKEN => "w"
  end.

(* types.rs:272-294  AnnotationType::layertype *)
Definition at_layertype (x : AnnotationType) : option ElementType :=
  match x with
  | AT_CHUNKING => Some ET_ChunkingLayer
  | AT_COREFERENCE => Some ET_CoreferenceLayer
  | AT_DEPENDENCY => Some ET_DependenciesLayer
  | AT_ENTITY => Some ET_EntitiesLayer
  | AT_MODALITY => Some ET_ModalitiesLayer
  | AT_MORPHOLOGICAL => Some ET_MorphologyLayer
  | AT_OBSERVATION => Some ET_ObservationLayer
  | AT_PHONOLOGICAL => Some ET_PhonologyLayer
  | AT_SEMROLE => Some ET_SemanticRolesLayer
  | AT_SENTIMENT => Some ET_SentimentLayer
  | AT_SPANRELATION => Some ET_SpanRelationLayer
  | AT_STATEMENT => Some ET_StatementLayer
  | AT_SYNTAX => Some ET_SyntaxLayer
  | AT_TIMESEGMENT => Some ET_TimingLayer
  | AT_PREDICATE => Some ET_SemanticRolesLayer
  | _ => None
  end.

(* types.rs:312-377  AnnotationType::elementtype *)
Definition at_elementtype (x : AnnotationType) : ElementType :=
  match x with
  | AT_ALTERNATIVE => ET_Alternative
  | AT_CHUNKING => ET_Chunk
  | AT_COMMENT => ET_Comment
  | AT_RAWCONTENT => ET_Content
  | AT_COREFERENCE => ET_CoreferenceChain
  | AT_CORRECTION => ET_Correction
  | AT_DEFINITION => ET_Definition
  | AT_DEPENDENCY => ET_Dependency
  | AT_DESCRIPTION => ET_Description
  | AT_DIVISION => ET_Division
  | AT_DOMAIN => ET_DomainAnnotation
  | AT_ENTITY => ET_Entity
  | AT_ENTRY => ET_Entry
  | AT_ERRORDETECTION => ET_ErrorDetection
  | AT_EVENT => ET_Event
  | AT_EXAMPLE => ET_Example
  | AT_EXTERNAL => ET_External
  | AT_FIGURE => ET_Figure
  | AT_GAP => ET_Gap
  | AT_HEAD => ET_Head
  | AT_HIDDENTOKEN => ET_Hiddenword
  | AT_HYPHENATION => ET_Hyphbreak
  | AT_LANG => ET_LangAnnotation
  | AT_LEMMA => ET_LemmaAnnotation
  | AT_LINEBREAK => ET_Linebreak
  | AT_LIST => ET_List
  | AT_METRIC => ET_Metric
  | AT_MODALITY => ET_Modality
  | AT_MORPHOLOGICAL => ET_Morpheme
  | AT_NOTE => ET_Note
  | AT_OBSERVATION => ET_Observation
  | AT_PARAGRAPH => ET_Paragraph
  | AT_PART => ET_Part
  | AT_PHON => ET_PhonContent
  | AT_PHONOLOGICAL => ET_Phoneme
  | AT_POS => ET_PosAnnotation
  | AT_PREDICATE => ET_Predicate
  | AT_QUOTE => ET_Quote
  | AT_REFERENCE => ET_Reference
  | AT_RELATION => ET_Relation
  | AT_SEMROLE => ET_SemanticRole
  | AT_SENSE => ET_SenseAnnotation
  | AT_SENTENCE => ET_Sentence
  | AT_SENTIMENT => ET_Sentiment
  | AT_SPANRELATION => ET_SpanRelation
  | AT_STATEMENT => ET_Statement
  | AT_STRING => ET_String
  | AT_SUBJECTIVITY => ET_SubjectivityAnnotation
  | AT_SYNTAX => ET_SyntacticUnit
  | AT_TABLE => ET_Table
  | AT_TERM => ET_Term
  | AT_TEXT => ET_TextContent
  | AT_HSPACE => ET_TextMarkupHSpace
  | AT_STYLE => ET_TextMarkupStyle
  | AT_TIMESEGMENT => ET_TimeSegment
  | AT_UTTERANCE => ET_Utterance
  | AT_WHITESPACE => ET_Whitespace
  | AT_TOKEN => ET_Word
  end.

(* types.rs:382-474  ElementType::annotationtype *)
Definition et_annotationtype (x : ElementType) : option AnnotationType :=
  match x with
  | ET_Alternative => Some AT_ALTERNATIVE
  | ET_AlternativeLayers => Some AT_ALTERNATIVE
  | ET_Chunk => Some AT_CHUNKING
  | ET_ChunkingLayer => Some AT_CHUNKING
  | ET_Comment => Some AT_COMMENT
  | ET_Content => Some AT_RAWCONTENT
  | ET_CoreferenceChain => Some AT_COREFERENCE
  | ET_CoreferenceLayer => Some AT_COREFERENCE
  | ET_CoreferenceLink => Some AT_COREFERENCE
  | ET_Correction => Some AT_CORRECTION
  | ET_Current => Some AT_CORRECTION
  | ET_Definition => Some AT_DEFINITION
  | ET_DependenciesLayer => Some AT_DEPENDENCY
  | ET_Dependency => Some AT_DEPENDENCY
  | ET_Description => Some AT_DESCRIPTION
  | ET_Division => Some AT_DIVISION
  | ET_DomainAnnotation => Some AT_DOMAIN
  | ET_EntitiesLayer => Some AT_ENTITY
  | ET_Entity => Some AT_ENTITY
  | ET_Entry => Some AT_ENTRY
  | ET_ErrorDetection => Some AT_ERRORDETECTION
  | ET_Event => Some AT_EVENT
  | ET_Example => Some AT_EXAMPLE
  | ET_External => Some AT_EXTERNAL
  | ET_Figure => Some AT_FIGURE
  | ET_Gap => Some AT_GAP
  | ET_Head => Some AT_HEAD
  | ET_Hiddenword => Some AT_HIDDENTOKEN
  | ET_Hyphbreak => Some AT_HYPHENATION
  | ET_LangAnnotation => Some AT_LANG
  | ET_LemmaAnnotation => Some AT_LEMMA
  | ET_Linebreak => Some AT_LINEBREAK
  | ET_List => Some AT_LIST
  | ET_Metric => Some AT_METRIC
  | ET_ModalitiesLayer => Some AT_MODALITY
  | ET_Modality => Some AT_MODALITY
  | ET_Morpheme => Some AT_MORPHOLOGICAL
  | ET_MorphologyLayer => Some AT_MORPHOLOGICAL
  | ET_New => Some AT_CORRECTION
  | ET_Note => Some AT_NOTE
  | ET_Observation => Some AT_OBSERVATION
  | ET_ObservationLayer => Some AT_OBSERVATION
  | ET_Original => Some AT_CORRECTION
  | ET_Paragraph => Some AT_PARAGRAPH
  | ET_Part => Some AT_PART
  | ET_PhonContent => Some AT_PHON
  | ET_Phoneme => Some AT_PHONOLOGICAL
  | ET_PhonologyLayer => Some AT_PHONOLOGICAL
  | ET_PosAnnotation => Some AT_POS
  | ET_Predicate => Some AT_PREDICATE
  | ET_Quote => Some AT_QUOTE
  | ET_Reference => Some AT_REFERENCE
  | ET_Relation => Some AT_RELATION
  | ET_SemanticRole => Some AT_SEMROLE
  | ET_SemanticRolesLayer => Some AT_SEMROLE
  | ET_SenseAnnotation => Some AT_SENSE
  | ET_Sentence => Some AT_SENTENCE
  | ET_Sentiment => Some AT_SENTIMENT
  | ET_SentimentLayer => Some AT_SENTIMENT
  | ET_SpanRelation => Some AT_SPANRELATION
  | ET_SpanRelationLayer => Some AT_SPANRELATION
  | ET_Statement => Some AT_STATEMENT
  | ET_StatementLayer => Some AT_STATEMENT
  | ET_String => Some AT_STRING
  | ET_SubjectivityAnnotation => Some AT_SUBJECTIVITY
  | ET_Suggestion => Some AT_CORRECTION
  | ET_SyntacticUnit => Some AT_SYNTAX
  | ET_SyntaxLayer => Some AT_SYNTAX
  | ET_Table => Some AT_TABLE
  | ET_Term => Some AT_TERM
  | ET_TextContent => Some AT_TEXT
  | ET_TextMarkupCorrection => Some AT_CORRECTION
  | ET_TextMarkupError => Some AT_ERRORDETECTION
  | ET_TextMarkupGap => Some AT_GAP
  | ET_TextMarkupHSpace => Some AT_HSPACE
  | ET_TextMarkupLanguage => Some AT_LANG
  | ET_TextMarkupReference => Some AT_REFERENCE
  | ET_TextMarkupString => Some AT_STRING
  | ET_TextMarkupStyle => Some AT_STYLE
  | ET_TextMarkupWhitespace => Some AT_WHITESPACE
  | ET_TimeSegment => Some AT_TIMESEGMENT
  | ET_TimingLayer => Some AT_TIMESEGMENT
  | ET_Utterance => Some AT_UTTERANCE
  | ET_Whitespace => Some AT_WHITESPACE
  | ET_Word => Some AT_TOKEN
  | _ => None
  end.

(* types.rs:482-607 *)
Definition et_as_str (x : ElementType) : string :=
  match x with
  | ET_ActorFeature => "actor"
  | ET_Alternative => "alt"
  | ET_AlternativeLayers => "altlayers"
  | ET_BegindatetimeFeature => "begindatetime"
  | ET_Caption => "caption"
  | ET_Cell => "cell"
  | ET_Chunk => "chunk"
  | ET_ChunkingLayer => "chunking"
  | ET_Comment => "comment"
  | ET_Content => "content"
  | ET_CoreferenceChain => "coreferencechain"
  | ET_CoreferenceLayer => "coreferences"
  | ET_CoreferenceLink => "coreferencelink"
  | ET_Correction => "correction"
  | ET_Cue => "cue"
  | ET_Current => "current"
  | ET_Definition => "def"
  | ET_DependenciesLayer => "dependencies"
  | ET_Dependency => "dependency"
  | ET_DependencyDependent => "dep"
  | ET_Description => "desc"
  | ET_Division => "div"
  | ET_DomainAnnotation => "domain"
  | ET_EnddatetimeFeature => "enddatetime"
  | ET_EntitiesLayer => "entities"
  | ET_Entity => "entity"
  | ET_Entry => "entry"
  | ET_ErrorDetection => "errordetection"
  | ET_Event => "event"
  | ET_Example => "ex"
  | ET_External => "external"
  | ET_Feature => "feat"
  | ET_Figure => "figure"
  | ET_FontFeature => "font"
  | ET_ForeignData => "foreign-data"
  | ET_FunctionFeature => "function"
  | ET_Gap => "gap"
  | ET_Head => "head"
  | ET_HeadFeature => "headfeature"
  | ET_Headspan => "hd"
  | ET_Hiddenword => "hiddenw"
  | ET_Hyphbreak => "t-hbr"
  | ET_Label => "label"
  | ET_LangAnnotation => "lang"
  | ET_LemmaAnnotation => "lemma"
  | ET_LevelFeature => "level"
  | ET_Linebreak => "br"
  | ET_LinkReference => "xref"
  | ET_List => "list"
  | ET_ListItem => "item"
  | ET_Metric => "metric"
  | ET_ModalitiesLayer => "modalities"
  | ET_Modality => "modality"
  | ET_ModalityFeature => "mod"
  | ET_Morpheme => "morpheme"
  | ET_MorphologyLayer => "morphology"
  | ET_New => "new"
  | ET_Note => "note"
  | ET_Observation => "observation"
  | ET_ObservationLayer => "observations"
  | ET_Original => "original"
  | ET_Paragraph => "p"
  | ET_Part => "part"
  | ET_PhonContent => "ph"
  | ET_Phoneme => "phoneme"
  | ET_PhonologyLayer => "phonology"
  | ET_PolarityFeature => "polarity"
  | ET_PosAnnotation => "pos"
  | ET_Predicate => "predicate"
  | ET_Quote => "quote"
  | ET_Reference => "ref"
  | ET_Relation => "relation"
  | ET_Row => "row"
  | ET_Scope => "scope"
  | ET_SemanticRole => "semrole"
  | ET_SemanticRolesLayer => "semroles"
  | ET_SenseAnnotation => "sense"
  | ET_Sentence => "s"
  | ET_Sentiment => "sentiment"
  | ET_SentimentLayer => "sentiments"
  | ET_SizeFeature => "size"
  | ET_Source => "source"
  | ET_SpanRelation => "spanrelation"
  | ET_SpanRelationLayer => "spanrelations"
  | ET_Speech => "speech"
  | ET_Statement => "statement"
  | ET_StatementLayer => "statements"
  | ET_StatementRelation => "rel"
  | ET_StrengthFeature => "strength"
  | ET_String => "str"
  | ET_StyleFeature => "style"
  | ET_SubjectivityAnnotation => "subjectivity"
  | ET_Suggestion => "suggestion"
  | ET_SynsetFeature => "synset"
  | ET_SyntacticUnit => "su"
  | ET_SyntaxLayer => "syntax"
  | ET_Table => "table"
  | ET_TableHead => "tablehead"
  | ET_Target => "target"
  | ET_Term => "term"
  | ET_Text => "text"
  | ET_TextContent => "t"
  | ET_TextMarkupCorrection => "t-correction"
  | ET_TextMarkupError => "t-error"
  | ET_TextMarkupGap => "t-gap"
  | ET_TextMarkupHSpace => "t-hspace"
  | ET_TextMarkupLanguage => "t-lang"
  | ET_TextMarkupReference => "t-ref"
  | ET_TextMarkupString => "t-str"
  | ET_TextMarkupStyle => "t-style"
  | ET_TextMarkupWhitespace => "t-whitespace"
  | ET_TimeFeature => "time"
  | ET_TimeSegment => "timesegment"
  | ET_TimingLayer => "timing"
  | ET_Utterance => "utt"
  | ET_ValueFeature => "value"
  | ET_Whitespace => "whitespace"
  | ET_Word => "w"
  | ET_WordReference => "wref"
  end.

(* types.rs:640-766  the arms of ElementType::from_str, in order; any other string is a ParseError *)
Definition et_tags : list (string * ElementType) :=
  [ ("actor", ET_ActorFeature);
    ("alt", ET_Alternative);
    ("altlayers", ET_AlternativeLayers);
    ("begindatetime", ET_BegindatetimeFeature);
    ("caption", ET_Caption);
    ("cell", ET_Cell);
    ("chunk", ET_Chunk);
    ("chunking", ET_ChunkingLayer);
    ("comment", ET_Comment);
    ("content", ET_Content);
    ("coreferencechain", ET_CoreferenceChain);
    ("coreferences", ET_CoreferenceLayer);
    ("coreferencelink", ET_CoreferenceLink);
    ("correction", ET_Correction);
    ("cue", ET_Cue);
    ("current", ET_Current);
    ("def", ET_Definition);
    ("dependencies", ET_DependenciesLayer);
    ("dependency", ET_Dependency);
    ("dep", ET_DependencyDependent);
    ("desc", ET_Description);
    ("div", ET_Division);
    ("domain", ET_DomainAnnotation);
    ("enddatetime", ET_EnddatetimeFeature);
    ("entities", ET_EntitiesLayer);
    ("entity", ET_Entity);
    ("entry", ET_Entry);
    ("errordetection", ET_ErrorDetection);
    ("event", ET_Event);
    ("ex", ET_Example);
    ("external", ET_External);
    ("feat", ET_Feature);
    ("figure", ET_Figure);
    ("font", ET_FontFeature);
    ("foreign-data", ET_ForeignData);
    ("function", ET_FunctionFeature);
    ("gap", ET_Gap);
    ("head", ET_Head);
    ("headfeature", ET_HeadFeature);
    ("hd", ET_Headspan);
    ("hiddenw", ET_Hiddenword);
    ("t-hbr", ET_Hyphbreak);
    ("label", ET_Label);
    ("lang", ET_LangAnnotation);
    ("lemma", ET_LemmaAnnotation);
    ("level", ET_LevelFeature);
    ("br", ET_Linebreak);
    ("xref", ET_LinkReference);
    ("list", ET_List);
    ("item", ET_ListItem);
    ("metric", ET_Metric);
    ("modalities", ET_ModalitiesLayer);
    ("modality", ET_Modality);
    ("mod", ET_ModalityFeature);
    ("morpheme", ET_Morpheme);
    ("morphology", ET_MorphologyLayer);
    ("new", ET_New);
    ("note", ET_Note);
    ("observation", ET_Observation);
    ("observations", ET_ObservationLayer);
    ("original", ET_Original);
    ("p", ET_Paragraph);
    ("part", ET_Part);
    ("ph", ET_PhonContent);
    ("phoneme", ET_Phoneme);
    ("phonology", ET_PhonologyLayer);
    ("polarity", ET_PolarityFeature);
    ("pos", ET_PosAnnotation);
    ("predicate", ET_Predicate);
    ("quote", ET_Quote);
    ("ref", ET_Reference);
    ("relation", ET_Relation);
    ("row", ET_Row);
    ("scope", ET_Scope);
    ("semrole", ET_SemanticRole);
    ("semroles", ET_SemanticRolesLayer);
    ("sense", ET_SenseAnnotation);
    ("s", ET_Sentence);
    ("sentiment", ET_Sentiment);
    ("sentiments", ET_SentimentLayer);
    ("size", ET_SizeFeature);
    ("source", ET_Source);
    ("spanrelation", ET_SpanRelation);
    ("spanrelations", ET_SpanRelationLayer);
    ("speech", ET_Speech);
    ("statement", ET_Statement);
    ("statements", ET_StatementLayer);
    ("rel", ET_StatementRelation);
    ("strength", ET_StrengthFeature);
    ("str", ET_String);
    ("style", ET_StyleFeature);
    ("subjectivity", ET_SubjectivityAnnotation);
    ("suggestion", ET_Suggestion);
    ("synset", ET_SynsetFeature);
    ("su", ET_SyntacticUnit);
    ("syntax", ET_SyntaxLayer);
    ("table", ET_Table);
    ("tablehead", ET_TableHead);
    ("target", ET_Target);
    ("term", ET_Term);
    ("text", ET_Text);
    ("t", ET_TextContent);
    ("t-correction", ET_TextMarkupCorrection);
    ("t-error", ET_TextMarkupError);
    ("t-gap", ET_TextMarkupGap);
    ("t-hspace", ET_TextMarkupHSpace);
    ("t-lang", ET_TextMarkupLanguage);
    ("t-ref", ET_TextMarkupReference);
    ("t-str", ET_TextMarkupString);
    ("t-style", ET_TextMarkupStyle);
    ("t-whitespace", ET_TextMarkupWhitespace);
    ("time", ET_TimeFeature);
    ("timesegment", ET_TimeSegment);
    ("timing", ET_TimingLayer);
    ("utt", ET_Utterance);
    ("value", ET_ValueFeature);
    ("whitespace", ET_Whitespace);
    ("w", ET_Word);
    ("wref", ET_WordReference) ].

Definition et_from_str (s : string) : option ElementType := str_match et_tags s.

(* attrib.rs:27-62  Into<&str> for AttribType *)
Definition ab_as_str (x : AttribType) : string :=
  match x with
  | AB_NONE => "NONE"
  | AB_ID => "xml:id"
  | AB_SET => "set"
  | AB_CLASS => "class"
  | AB_ANNOTATOR => "annotator"
  | AB_ANNOTATORTYPE => "annotatortype"
  | AB_CONFIDENCE => "confidence"
  | AB_N => "n"
  | AB_DATETIME => "datetime"
  | AB_BEGINTIME => "begintime"
  | AB_ENDTIME => "endtime"
  | AB_SRC => "src"
  | AB_SPEAKER => "speaker"
  | AB_TEXTCLASS => "textclass"
  | AB_METADATA => "metadata"
  | AB_IDREF => "id"
  | AB_SPACE => "space"
  | AB_PROCESSOR => "processor"
  | AB_HREF => "xlink:href"
  | AB_FORMAT => "format"
  | AB_SUBSET => "subset"
  | AB_TEXT => "t"
  | AB_TYPE => "type"
  | AB_AUTH => "auth"
  | AB_OFFSET => "offset"
  | AB_REF => "ref"
  | AB_LINENR => "linenr"
  | AB_PAGENR => "pagenr"
  | AB_NEWPAGE => "newpage"
  | AB_ORIGINAL => "original"
  | AB_XLINKTYPE => "xlink:type"
  | AB_TAG => "tag"
  end.
