(* Model of /repo/src/attrib.rs *)
From Coq Require Import String Ascii List Bool NArith.
From Verif Require Import Base Types.
Import ListNotations.
Open Scope string_scope.

(* metadata.rs:330-335  enum ProcessorType *)
Inductive ProcessorType : Set := PT_Auto | PT_Manual | PT_Generator | PT_DataSource.

Definition all_pt : list ProcessorType := [PT_Auto; PT_Manual; PT_Generator; PT_DataSource].
(* derived PartialEq *)
Definition pt_eqb (a b : ProcessorType) : bool :=
  match a, b with
  | PT_Auto, PT_Auto | PT_Manual, PT_Manual | PT_Generator, PT_Generator | PT_DataSource, PT_DataSource => true
  | _, _ => false
  end.

(* metadata.rs:338-345  ProcessorType::as_str *)
Definition pt_as_str (t : ProcessorType) : string :=
  match t with
  | PT_Auto => "auto" | PT_Manual => "manual" | PT_Generator => "generator" | PT_DataSource => "datasource"
  end.

(* attrib.rs:73-111  enum Attribute. Key types are nat; u16 values are N (the parser checks the range);
   f64 is a 64-bit pattern in N. *)
Inductive Attribute : Set :=
  | A_Ignore
  | A_Id (s : string)
  | A_Set (s : string)
  | A_DeclarationRef (k : nat)
  | A_Class (s : string)
  | A_ClassRef (k : nat)
  | A_Annotator (s : string)
  | A_AnnotatorType (t : ProcessorType)
  | A_Confidence (f : N)
  | A_N (s : string)
  | A_DateTime (d : datetime)
  | A_BeginTime (s : string)
  | A_EndTime (s : string)
  | A_Src (s : string)
  | A_Speaker (s : string)
  | A_Textclass (s : string)
  | A_Metadata (s : string)
  | A_Idref (s : string)
  | A_Space (b : bool)
  | A_Text (s : string)
  | A_Type (s : string)
  | A_Auth (s : string)
  | A_Offset (n : N)
  | A_Ref (s : string)
  | A_Original (s : string)
  | A_LineNr (n : N)
  | A_PageNr (s : string)
  | A_NewPage (b : bool)
  | A_XLinkType (s : string)
  | A_Processor (s : string)
  | A_ProcessorRef (k : nat)
  | A_Href (s : string)
  | A_Format (s : string)
  | A_Subset (s : string)
  | A_SubsetRef (k : nat).

(* attrib.rs:128-133  Attribute::decodable *)
Definition decodable (a : Attribute) : bool :=
  match a with
  | A_DeclarationRef _ | A_ClassRef _ | A_ProcessorRef _ | A_SubsetRef _ => true
  | _ => false
  end.

(* attrib.rs:136-141  Attribute::encodable *)
Definition a_encodable (a : Attribute) : bool :=
  match a with
  | A_Set _ | A_Class _ | A_Processor _ | A_Subset _ => true
  | _ => false
  end.

(* attrib.rs:192-230  Attribute::attribtype *)
Definition attribtype (a : Attribute) : AttribType :=
  match a with
  | A_Ignore => AB_NONE
  | A_Id _ => AB_ID
  | A_Set _ => AB_SET
  | A_DeclarationRef _ => AB_SET
  | A_Class _ => AB_CLASS
  | A_ClassRef _ => AB_CLASS
  | A_Annotator _ => AB_ANNOTATOR
  | A_AnnotatorType _ => AB_ANNOTATORTYPE
  | A_Confidence _ => AB_CONFIDENCE
  | A_N _ => AB_N
  | A_DateTime _ => AB_DATETIME
  | A_BeginTime _ => AB_BEGINTIME
  | A_EndTime _ => AB_ENDTIME
  | A_Src _ => AB_SRC
  | A_Speaker _ => AB_SPEAKER
  | A_Textclass _ => AB_TEXTCLASS
  | A_Metadata _ => AB_METADATA
  | A_Idref _ => AB_IDREF
  | A_Space _ => AB_SPACE
  | A_Processor _ => AB_PROCESSOR
  | A_ProcessorRef _ => AB_PROCESSOR
  | A_Href _ => AB_HREF
  | A_Format _ => AB_FORMAT
  | A_XLinkType _ => AB_XLINKTYPE
  | A_Subset _ => AB_SUBSET
  | A_SubsetRef _ => AB_SUBSET
  | A_Text _ => AB_TEXT
  | A_Type _ => AB_TYPE
  | A_Offset _ => AB_OFFSET
  | A_Ref _ => AB_REF
  | A_Auth _ => AB_AUTH
  | A_Original _ => AB_ORIGINAL
  | A_LineNr _ => AB_LINENR
  | A_PageNr _ => AB_PAGENR
  | A_NewPage _ => AB_NEWPAGE
  end.

Definition yes_no (b : bool) : string := if b then "yes" else "no".

(* attrib.rs:146-162  Attribute::as_str *)
Definition a_as_str (a : Attribute) : res string :=
  match a with
  | A_Id s | A_Set s | A_Class s | A_Annotator s | A_N s | A_BeginTime s | A_EndTime s | A_Src s
  | A_Speaker s | A_Textclass s | A_Metadata s | A_Idref s | A_Processor s | A_Href s | A_Format s
  | A_Subset s | A_Text s | A_Type s | A_Ref s | A_Original s | A_Auth s | A_XLinkType s | A_PageNr s => Ok s
  | A_AnnotatorType t => Ok (pt_as_str t)
  | A_Space b => Ok (yes_no b)
  | A_NewPage b => Ok (yes_no b)
  | A_Ignore => Err EType
  | A_DeclarationRef _ | A_ClassRef _ | A_ProcessorRef _ | A_SubsetRef _
  | A_Confidence _ | A_DateTime _ | A_Offset _ | A_LineNr _ => Err EType
  end.

(* attrib.rs:167-183  Attribute::to_string *)
Definition a_to_string (O : oracle) (a : Attribute) : res string :=
  match a with
  | A_Confidence f => Ok (f64_print O f)
  | A_Offset n => Ok (dec_of_N n)
  | A_LineNr n => Ok (dec_of_N n)
  | A_DateTime d => Ok (dt_print d)
  | A_Ignore => Err EType
  | _ => match a_as_str a with
         | Ok s => Ok s
         | _ => Err EType
         end
  end.

(* attrib.rs:113-121  Display for Attribute: as_str, else to_string().expect(..) *)
Definition a_display (O : oracle) (a : Attribute) : res string :=
  match a_as_str a with
  | Ok s => Ok s
  | _ => unwrap (a_to_string O a)
  end.

(* attrib.rs:235-243  Attribute::attribtypeclass *)
Definition attribtypeclass (a : Attribute) : AttribType :=
  match attribtype a with
  | AB_SET => AB_CLASS
  | AB_PROCESSOR => AB_ANNOTATOR
  | AB_ANNOTATORTYPE => AB_ANNOTATOR
  | t => t
  end.

Definition parse_annotatortype (v : string) : res Attribute :=
  if v =? "auto" then Ok (A_AnnotatorType PT_Auto)
  else if v =? "manual" then Ok (A_AnnotatorType PT_Manual)
  else if v =? "generator" then Ok (A_AnnotatorType PT_Generator)
  else if v =? "datasource" then Ok (A_AnnotatorType PT_DataSource)
  else Err EParse.

Definition parse_yes_no (f : bool -> Attribute) (v : string) : res Attribute :=
  if (v =? "yes") || (v =? "true") then Ok (f true)
  else if (v =? "no") || (v =? "false") then Ok (f false)
  else Err EParse.

(* attrib.rs:248-378  the arms of the match on the attribute name, in order; each maps the value *)
Definition attrib_parsers (O : oracle) : list (string * (string -> res Attribute)) :=
  [ ("xml:id", fun v => Ok (A_Id v));
    ("set", fun v => Ok (A_Set v));
    ("class", fun v => Ok (A_Class v));
    ("processor", fun v => Ok (A_Processor v));
    ("annotator", fun v => Ok (A_Annotator v));
    ("annotatortype", parse_annotatortype);
    ("subset", fun v => Ok (A_Subset v));
    ("format", fun v => Ok (A_Format v));
    ("xlink:href", fun v => Ok (A_Href v));
    ("xlink:type", fun v => Ok (A_XLinkType v));
    ("speaker", fun v => Ok (A_Speaker v));
    ("src", fun v => Ok (A_Src v));
    ("n", fun v => Ok (A_N v));
    ("t", fun v => Ok (A_Text v));
    ("datetime", fun v => match dt_parse v with Some d => Ok (A_DateTime d) | None => Err EParse end);
    ("begintime", fun v => Ok (A_BeginTime v));
    ("endtime", fun v => Ok (A_EndTime v));
    ("textclass", fun v => Ok (A_Textclass v));
    ("metadata", fun v => Ok (A_Metadata v));
    ("id", fun v => Ok (A_Idref v));
    ("type", fun v => Ok (A_Type v));
    ("auth", fun v => Ok (A_Auth v));
    ("original", fun v => Ok (A_Original v));
    ("pagenr", fun v => Ok (A_PageNr v));
    ("offset", fun v => match u16_from_str v with Some n => Ok (A_Offset n) | None => Err EParse end);
    ("linenr", fun v => match u16_from_str v with Some n => Ok (A_LineNr n) | None => Err EParse end);
    ("newpage", parse_yes_no A_NewPage);
    ("ref", fun v => Ok (A_Ref v));
    ("confidence", fun v => match f64_parse O v with Some f => Ok (A_Confidence f) | None => Err EParse end);
    ("space", parse_yes_no A_Space);
    ("typegroup", fun _ => Ok A_Ignore) ].

(* attrib.rs:246-382  Attribute::parse on an attribute name and its unescaped value;
   [None] = the value could not be unescaped/decoded (attrib.rs:379-381) *)
Definition parse_attrib (O : oracle) (key : string) (value : option string) : res Attribute :=
  match value with
  | None => Err EParse
  | Some v =>
      match str_match (attrib_parsers O) key with
      | Some f => f v
      | None => if str_contains_char ":" key then Ok A_Ignore else Err EParse
      end
  end.
