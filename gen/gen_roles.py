# Writes ModelRoles.v (StructRole / StructRole2, from the source text).
import re,sys
sys.path.insert(0,'/verif/gen')
from enums import enums
from gen_enums import wrap
def arms(body,f,g):
    """match arms of body: list of (patterns, result)"""
    body=body[body.index('{')+1:]
    out=[];i=0
    for m in re.finditer(r'((?:Self::\w+(?:\(_\))?(?: \| )?)+)\s*=>\s*(\{[^{}]*\}|[^,]*?(?:\([^()]*(?:\([^()]*(?:\([^()]*\))?[^()]*\))*[^()]*\))?),?(?=\s*Self::|\s*\}|\s*$)',body):
        pats=re.findall(r'Self::(\w+)',m.group(1)); r=m.group(2).strip().strip('{}').strip()
        out.append((pats,r))
    return out
E1=enums['StructRole'];E2=enums['StructRole2']
v1=E1['vars']; v2=[re.match(r'\w+',v).group(0) for v in E2['vars']]
m=['''(** Model of src/structure.rs:771-1475: structure roles of PDF 1.7 and 2.0 ([StructRole] itself
    and its names are in ModelEnums.v).  Generated by gen/gen_roles.py from the source text. *)

From Coq Require Import ZArith List Bool.
From Verif Require Import Bytes ModelFloat ModelBuf ModelObject ModelEnums.
Import ListNotations.
Local Open Scope Z_scope.

(** src/structure.rs:1095-1178. [StructRole2_Heading level] with 1 <= level <= 65535 ([NonZeroU16]). *)
Inductive StructRole2 :=''']
m.append(wrap([f'| StructRole2_{v}'+(' (level : Z)' if v=='Heading' else '') for v in v2])+'.')
m.append('''
(** [write!(&mut cursor, ...)] into a buffer of [n] bytes (std::io::Cursor<&mut [u8]>): an error
    (here a panic, [unwrap]) unless everything fits. *)
Definition write_fixed (n : Z) (s : bytes) : option bytes := if blen s <=? n then Some s else None.

(** src/structure.rs:1186-1235 [StructRole2::to_name] with its buffer of 6 bytes. *)
Definition StructRole2_name (r : StructRole2) : option bytes :=
  match r with''')
names=dict(re.findall(r'Self::(\w+) => b"(\w+)"',E2['fns']['to_name'][3]))
m.append(wrap([f'| StructRole2_{v} => Some (lit "{names[v]}")' if v!='Heading' else '| StructRole2_Heading level => write_fixed 6 (lit "H" ++ dec_u level)' for v in v2])+'\n  end.')
b=E1['fns']['into_pdf_2_0'][3]
r=dict(re.findall(r'Self::(\w+) => (None|Some\(StructRole2::\w+(?:\(NonZeroU16::new\(\d\)\.unwrap\(\)\))?\))',b)); assert set(r)==set(v1)
def c2(x):
    if x=='None': return 'None'
    g=re.match(r'Some\(StructRole2::(\w+)(?:\(NonZeroU16::new\((\d)\))?',x)
    return f'Some (StructRole2_{g.group(1)} {g.group(2)})' if g.group(2) else f'Some StructRole2_{g.group(1)}'
m.append('\n(** src/structure.rs:931-983 [StructRole::into_pdf_2_0], 1082-1088 [TryFrom]. *)\nDefinition into_pdf_2_0 (r : StructRole) : option StructRole2 :=\n  match r with\n'+wrap([f'| StructRole_{v} => {c2(r[v])}' for v in v1])+'\n  end.')
m.append('''
(** src/structure.rs:1372-1391 [RoleMapOpts]. *)
Record RoleMapOpts := mkRoleMapOpts { map_hn_to_h6 : bool; map_title_to_h1 : bool; map_sub_to_span : bool }.
Definition RoleMapOpts_default : RoleMapOpts := mkRoleMapOpts false false false.

(** src/structure.rs:1395-1401. *)
Inductive StructRole2Compat := Compatible (r : StructRole) | RoleMapping (r : StructRole).

(** src/structure.rs:1241-1323. *)
Definition compatibility_1_7 (r : StructRole2) (opts : RoleMapOpts) : StructRole2Compat :=
  match r with''')
b=E2['fns']['compatibility_1_7'][3]
r=dict((a,(k,x)) for a,k,x in re.findall(r'Self::(\w+) => (?:\{ )?StructRole2Compat::(Compatible|RoleMapping)\(StructRole::(\w+)\)',b))
al=[]
opt=dict((a,(o,x,y)) for a,o,x,y in re.findall(r'Self::(\w+)(?:\(_\))? => StructRole2Compat::RoleMapping\( if opts\.contains\(RoleMapOpts::(\w+)\) \{ StructRole::(\w+) \} else \{ StructRole::(\w+) \}',b))
for v in v2:
    if v in r: al.append(f'| StructRole2_{v} => {r[v][0]} StructRole_{r[v][1]}')
    else:
        o,x,y=opt[v]; rest=f'RoleMapping (if {o.lower()} opts then StructRole_{x} else StructRole_{y})'
        if v=='Heading':
            hs=re.findall(r'Heading\(n\) if n\.get\(\) == (\d) => \{ StructRole2Compat::Compatible\(StructRole::(\w+)\)',b); assert len(hs)==6
            e='\n      '+''.join(f'if n =? {a} then Compatible StructRole_{c} else ' for a,c in hs)+'\n      '+rest+'\n  '
            al.append(f'| StructRole2_Heading n => {e}')
        else: al.append(f'| StructRole2_{v} => {rest}')
m.append(wrap(al)+'\n  end.')
m.append('''
(** src/structure.rs:1406-1430. *)
Definition into_pdf_1_7 (c : StructRole2Compat) : option StructRole := match c with Compatible r => Some r | RoleMapping _ => None end.
Definition role_mapped_1_7 (c : StructRole2Compat) : option StructRole := match c with Compatible _ => None | RoleMapping r => Some r end.
Definition compat_role (c : StructRole2Compat) : StructRole := match c with Compatible r => r | RoleMapping r => r end.

(** src/structure.rs:1433-1442 [TryFrom<StructRole2> for StructRole]. *)
Definition try_from_role2 (r : StructRole2) : option StructRole := into_pdf_1_7 (compatibility_1_7 r RoleMapOpts_default).

(** src/structure.rs:1042-1080. *)
Inductive BlockLevelRoleSubtype := BlockParagraphLike | BlockList | BlockTable.
Inductive InlineLevelRoleSubtype := InlineGeneric | InlineLink | InlineAnnotation | InlineRubyWarichu.
Inductive StructRoleType := Grouping | BlockLevel (s : BlockLevelRoleSubtype) | InlineLevel (s : InlineLevelRoleSubtype) | Illustration | TableType.

(** src/structure.rs:986-1036 [StructRole::role_type]. *)
Definition role_type (r : StructRole) : StructRoleType :=
  match r with''')
def tr1(x):
    x=x.replace('StructRoleType::','')
    g=re.match(r'(\w+)\((\w+)::(\w+)\)',x)
    if g: return f'{g.group(1)} {"Block" if "Block" in g.group(2) else "Inline"}{g.group(3)}'
    return 'TableType' if x=='Table' else x
A=arms(E1['fns']['role_type'][3],0,0); assert sorted(sum((a for a,_ in A),[]))==sorted(v1),A
for a,x in A: m.append(wrap([f'| StructRole_{v}' for v in a])+f' => {tr1(x)}')
m.append('''  end.

(** src/structure.rs:1447-1482. *)
Inductive StructRoleType2 := T2Document | T2Grouping | T2BlockLevel | T2SubBlockLevel | T2InlineGeneric | T2InlineRubyWarichu | T2List
  | T2Table | T2Caption | T2Figure | T2Formula | T2Artifact.

(** src/structure.rs:1326-1369 [StructRole2::role_type]. *)
Definition role_type2 (r : StructRole2) : StructRoleType2 :=
  match r with''')
A=arms(E2['fns']['role_type'][3],0,0); assert sorted(sum((a for a,_ in A),[]))==sorted(v2),A
def tr2(x):
    x=x.replace('StructRoleType2::','')
    g=re.match(r'(\w+)\((\w+)::(\w+)\)',x)
    return 'T2Inline'+g.group(3) if g else 'T2'+x
for a,x in A: m.append(wrap([f'| StructRole2_{v}'+(' _' if v=='Heading' else '') for v in a])+f' => {tr2(x)}')
m.append('  end.\n')
open('/verif/rocq/theories/ModelRoles.v','w').write('\n'.join(m))
