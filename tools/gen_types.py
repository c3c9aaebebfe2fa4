#!/usr/bin/env python3
"""Generates rocq/theories/Types.v and SpecTable.v from /repo/src/types.rs, specification.rs, attrib.rs."""
import re, sys, os
SRC="/repo/src/"; OUT=os.path.join(os.path.dirname(os.path.abspath(__file__)),"..","rocq","theories")
types=open(SRC+"types.rs").read(); spec=open(SRC+"specification.rs").read(); attr=open(SRC+"attrib.rs").read()
def lineno(text,pos): return text.count("\n",0,pos)+1
def enum(text,name):
    m=re.search(r"pub enum %s \{([^}]*)\}"%name,text)
    body=re.sub(r"//[^\n]*","",m.group(1))
    return [x.strip() for x in body.split(",") if x.strip()], lineno(text,m.start())
ETs,et_ln=enum(types,"ElementType"); EGs,eg_ln=enum(types,"ElementGroup"); ATs,at_ln=enum(types,"AnnotationType"); ABs,ab_ln=enum(attr,"AttribType")
ET=lambda x:"ET_"+x; EG=lambda x:"EG_"+x; AT=lambda x:"AT_"+x; AB=lambda x:"AB_"+x
def fn(text,start_pat,occ=0):
    ms=list(re.finditer(start_pat,text)); m=ms[occ]
    i=text.index("{",m.end()-1); d=0
    for j in range(i,len(text)):
        if text[j]=="{": d+=1
        elif text[j]=="}":
            d-=1
            if d==0: break
    return text[i:j+1], lineno(text,m.start()), lineno(text,j)
o=[]
w=o.append
w("(* GENERATED by tools/gen_types.py from /repo/src/types.rs and attrib.rs. Do not edit. *)")
w("From Coq Require Import String List Bool Arith.")
w("Import ListNotations.\nOpen Scope string_scope.\n")
def mkenum(name,cons,pre,short,src,ln):
    w("(* %s:%d  enum %s *)"%(src,ln,name))
    w("Inductive %s : Set :="%name)
    for c in cons: w("  | %s"%pre(c))
    o[-1]+="."
    w("Definition all_%s : list %s := [%s]."%(short,name,"; ".join(map(pre,cons))))
    w("(* discriminant (declaration order), used for the derived PartialEq *)")
    w("Definition %s_idx (x : %s) : nat :=\n  match x with"%(short,name))
    for i,c in enumerate(cons): w("  | %s => %d"%(pre(c),i))
    w("  end.")
    w("(* derived PartialEq of %s *)"%name)
    w("Definition %s_eqb (a b : %s) : bool := Nat.eqb (%s_idx a) (%s_idx b).\n"%(short,name,short,short))
mkenum("ElementType",ETs,ET,"et","types.rs",et_ln)
mkenum("ElementGroup",EGs,EG,"eg","types.rs",eg_ln)
mkenum("AnnotationType",ATs,AT,"at","types.rs",at_ln)
mkenum("AttribType",ABs,AB,"ab","attrib.rs",ab_ln)
# groups
b,l1,l2=fn(types,r"pub fn elementtypes\(&self\)[^{]*\{")
w("(* types.rs:%d-%d  ElementGroup::elementtypes *)"%(l1,l2))
w("Definition group_elementtypes (g : ElementGroup) : list ElementType :=\n  match g with")
seen=[]
for m in re.finditer(r"ElementGroup::(\w+) => &\[([^\]]*)\]",b):
    seen.append(m.group(1))
    w("  | %s => [%s]"%(EG(m.group(1)),"; ".join(ET(x.strip().split("::")[1]) for x in m.group(2).split(",") if x.strip())))
assert sorted(seen)==sorted(EGs)
w("  end.\n")
w("(* types.rs:59-61  ElementGroup::contains *)")
w("Definition group_contains (g : ElementGroup) (t : ElementType) : bool :=\n  existsb (et_eqb t) (group_elementtypes g).\n")
# AnnotationType::as_str
def strmap(pat,occ,defn,ty,prefix,pre,cons,default=None):
    b,l1,l2=fn(types,pat,occ)
    w("(* types.rs:%d-%d *)"%(l1,l2))
    w("Definition %s (x : %s) : string :=\n  match x with"%(defn,ty))
    seen=[]
    for m in re.finditer(prefix+r"::(\w+) => \"([^\"]*)\"",b):
        seen.append(m.group(1)); w('  | %s => "%s"'%(pre(m.group(1)),m.group(2)))
    missing=[c for c in cons if c not in seen]
    if missing: print(defn,"missing",missing); 
    assert len(set(seen))==len(seen)
    if missing:
        m=re.search(r"_ => (\S+)",b); print("default:",m and m.group(0))
    w("  end.\n")
strmap(r"pub fn as_str\(&self\)[^{]*\{",0,"at_as_str","AnnotationType","AnnotationType",AT,ATs)
b,l1,l2=fn(types,r"pub fn from_str\(s: &str\)[^{]*\{")
w("(* types.rs:%d-%d  the arms of AnnotationType::from_str, in order *)"%(l1,l2))
w("Definition at_names : list (string * AnnotationType) :=\n  [ "+";\n    ".join('("%s", %s)'%(m.group(1),AT(m.group(2))) for m in re.finditer(r'"([^"]*)"\s*=>\s*Some\(AnnotationType::(\w+)\)',b))+" ].\n")
print("at from_str rest:",[l for l in b.split("\n") if "=>" in l and "Some(" not in l])
w("(* lookup of a string in the arms of a match on string literals: the first equal literal wins *)")
w("Fixpoint str_match {A} (l : list (string * A)) (s : string) : option A :=\n  match l with\n  | [] => None\n  | (k, v) :: r => if String.eqb s k then Some v else str_match r s\n  end.\n")
w("Definition at_from_str (s : string) : option AnnotationType := str_match at_names s.\n")
strmap(r"pub fn as_element_str\(&self\)[^{]*\{",0,"at_as_element_str","AnnotationType","AnnotationType",AT,ATs)
b,l1,l2=fn(types,r"pub fn layertype\(&self\)[^{]*\{")
w("(* types.rs:%d-%d  AnnotationType::layertype *)"%(l1,l2))
w("Definition at_layertype (x : AnnotationType) : option ElementType :=\n  match x with")
for m in re.finditer(r"AnnotationType::(\w+) => Some\(ElementType::(\w+)\)",b): w("  | %s => Some %s"%(AT(m.group(1)),ET(m.group(2))))
print("layertype rest:",[l for l in b.split("\n") if "=>" in l and "Some(" not in l])
w("  | _ => None\n  end.\n")
b,l1,l2=fn(types,r"pub fn elementtype\(&self\)[^{]*\{")
w("(* types.rs:%d-%d  AnnotationType::elementtype *)"%(l1,l2))
w("Definition at_elementtype (x : AnnotationType) : ElementType :=\n  match x with")
seen=[]
for m in re.finditer(r"AnnotationType::(\w+) => ElementType::(\w+)",b): seen.append(m.group(1)); w("  | %s => %s"%(AT(m.group(1)),ET(m.group(2))))
assert sorted(seen)==sorted(ATs),set(ATs)-set(seen)
w("  end.\n")
b,l1,l2=fn(types,r"pub fn annotationtype\(&self\)[^{]*\{")
w("(* types.rs:%d-%d  ElementType::annotationtype *)"%(l1,l2))
w("Definition et_annotationtype (x : ElementType) : option AnnotationType :=\n  match x with")
for m in re.finditer(r"ElementType::(\w+) => Some\(AnnotationType::(\w+)\)",b): w("  | %s => Some %s"%(ET(m.group(1)),AT(m.group(2))))
print("annotationtype rest:",[l for l in b.split("\n") if "=>" in l and "Some(" not in l])
w("  | _ => None\n  end.\n")
strmap(r"pub fn as_str\(&self\)[^{]*\{",1,"et_as_str","ElementType","ElementType",ET,ETs)
b,l1,l2=fn(types,r"fn from_str\(tag: &str\)[^{]*\{")
w("(* types.rs:%d-%d  the arms of ElementType::from_str, in order; any other string is a ParseError *)"%(l1,l2))
w("Definition et_tags : list (string * ElementType) :=\n  [ "+";\n    ".join('("%s", %s)'%(m.group(1),ET(m.group(2))) for m in re.finditer(r'"([^"]*)"\s*=>\s*Ok\(ElementType::(\w+)\)',b))+" ].\n")
print("et from_str rest:",[l for l in b.split("\n") if "=>" in l and "Ok(" not in l])
w("Definition et_from_str (s : string) : option ElementType := str_match et_tags s.\n")
# attribtype names
b,l1,l2=fn(attr,r"fn into\(self\)[^{]*\{")
w("(* attrib.rs:%d-%d  Into<&str> for AttribType *)"%(l1,l2))
w("Definition ab_as_str (x : AttribType) : string :=\n  match x with")
seen=[]
for m in re.finditer(r"AttribType::(\w+) => \"([^\"]*)\"",b): seen.append(m.group(1)); w('  | %s => "%s"'%(AB(m.group(1)),m.group(2)))
assert sorted(seen)==sorted(ABs)
w("  end.")
open(os.path.join(OUT,"Types.v"),"w").write("\n".join(o)+"\n")
# spec
o=[]; w=o.append
w("(* GENERATED by tools/gen_types.py from /repo/src/specification.rs. Do not edit. *)")
w("From Coq Require Import String List NArith.\nFrom Verif Require Import Types.\nImport ListNotations.\nOpen Scope string_scope.\n")
w("""(* specification.rs:12-16  enum AcceptedData *)
Inductive AcceptedData : Set :=
  | AcceptElementType (t : ElementType)
  | AcceptElementGroup (g : ElementGroup).

(* specification.rs:19-42  struct Properties (all fields; [label] omitted, it is only a display string) *)
Record Properties : Set := mkProps {
  p_xmltag : string;
  p_annotationtype : option AnnotationType;
  p_accepted_data : list AcceptedData;
  p_required_data : list AcceptedData;
  p_required_attribs : list AttribType;
  p_optional_attribs : list AttribType;
  p_occurrences : N;
  p_occurrences_per_set : N;
  p_textdelimiter : option string;
  p_printable : bool;
  p_speakable : bool;
  p_hidden : bool;
  p_xlink : bool;
  p_textcontainer : bool;
  p_phoncontainer : bool;
  p_subset : option string;
  p_auth : bool;
  p_primaryelement : bool;
  p_auto_generate_id : bool;
  p_setonly : bool;
  p_wrefable : bool }.
""")
FIELDS=["xmltag","annotationtype","accepted_data","required_data","required_attribs","optional_attribs","occurrences","occurrences_per_set","textdelimiter","printable","speakable","hidden","xlink","textcontainer","phoncontainer","subset","auth","primaryelement","auto_generate_id","setonly","wrefable"]
DEF=dict(xmltag='""',annotationtype="None",accepted_data="&[]",required_data="&[]",required_attribs="&[]",optional_attribs="&[]",occurrences="0",occurrences_per_set="0",textdelimiter="None",printable="false",speakable="false",hidden="false",xlink="false",textcontainer="false",phoncontainer="false",subset="None",auth="true",primaryelement="false",auto_generate_id="false",setonly="false",wrefable="false")
def coqstr(v):
    s=v[1:-1]
    s=s.replace('\\n','\n'); assert "\\" not in s
    s=s.replace('"','""')
    if "\n" in s:
        return "(" + "".join('String (Ascii.ascii_of_nat 10) (' if c=="\n" else 'String "%s" ('%c for c in s) + '""' + ")"*len(s) + ")"
    return '"%s"'%s
def conv(f,v):
    v=v.strip()
    if f=="xmltag": return coqstr(v)
    if f in("textdelimiter","subset"):
        if v=="None": return "None"
        return "(Some %s)"%coqstr(re.match(r'Some\((".*")\)$',v).group(1))
    if f=="annotationtype":
        if v=="None": return "None"
        return "(Some %s)"%AT(re.match(r"Some\(AnnotationType::(\w+)\)$",v).group(1))
    if f in("accepted_data","required_data"):
        r=[]
        inner=re.match(r"&\[(.*)\]$",v).group(1)
        for m in re.finditer(r"AcceptedData::Accept(ElementType|ElementGroup)\(Element(?:Type|Group)::(\w+)\)",inner):
            r.append("AcceptElementType "+ET(m.group(2)) if m.group(1)=="ElementType" else "AcceptElementGroup "+EG(m.group(2)))
        assert len(r)==inner.count("AcceptedData::")
        return "["+"; ".join(r)+"]"
    if f in("required_attribs","optional_attribs"):
        inner=re.match(r"&\[(.*)\]$",v).group(1)
        return "["+"; ".join(AB(m) for m in re.findall(r"AttribType::(\w+)",inner))+"]"
    if f.startswith("occurrences"): return v+"%N"
    assert v in("true","false"),(f,v)
    return v
arms=list(re.finditer(r"ElementType::(\w+) => \{\s*let mut properties = Properties::default\(\);(.*?)\n\s*properties\n\s*\}",spec,re.S))
assert sorted(m.group(1) for m in arms)==sorted(ETs), set(ETs)-set(m.group(1) for m in arms)
w("(* specification.rs:%d-%d  Properties::new; Specification::get(t) returns Properties::new(t) for every t *)"%(lineno(spec,arms[0].start()),lineno(spec,arms[-1].end())))
w("Definition props (t : ElementType) : Properties :=\n  match t with")
for m in arms:
    d=dict(DEF)
    for a in re.finditer(r"properties\.(\w+) = (.*);",m.group(2)):
        if a.group(1)=="label": continue
        assert a.group(1) in FIELDS,a.group(1)
        d[a.group(1)]=a.group(2)
    w("  | %s => (* line %d *)\n      mkProps %s"%(ET(m.group(1)),lineno(spec,m.start())," ".join(conv(f,d[f]) for f in FIELDS)))
w("  end.")
open(os.path.join(OUT,"SpecTable.v"),"w").write("\n".join(o)+"\n")
