# Writes ModelEnums.v (from the source text), SpecEnums.v (from iso_tables.py) and PropEnums.v.
import re,sys
sys.path.insert(0,'/verif/gen')
from enums import enums
import iso_tables as T
OUT='/verif/rocq/theories/'
REUSE={'LineCapStyle':('ModelContent.line_cap','ModelContent.line_cap_int',lambda v:'ModelContent.'+v),
 'LineJoinStyle':('ModelContent.line_join','ModelContent.line_join_int',lambda v:'ModelContent.'+v),
 'RenderingIntent':('ModelContent.rendering_intent','ModelContent.rendering_intent_name',lambda v:'ModelContent.'+('IntentSaturation' if v=='Saturation' else v)),
 'WMode':('ModelCmap.wmode','ModelCmap.wmode_int',lambda v:'ModelCmap.W'+v)}
def ty(E): return REUSE[E][0] if E in REUSE else E
def ctor(E,v): return REUSE[E][2](v) if E in REUSE else f'{E}_{v}'
def fn(E):
    if E in REUSE: return REUSE[E][1]
    return E+('_str' if E in T.STR else '_int' if E in T.I else '_name')
enums['LockingIntent']['fns']['to_name']=(919,925,"",'match self { Self::Lock => Name(b"true"), Self::DoNotLock => Name(b"false"), Self::Auto => Name(b"auto"), }')
def variants(E):
    return [re.match(r'(\w+)',v).group(1) for v in enums[E]['vars'] if '(' not in v]
def custom(E): return any('(' in v for v in enums[E]['vars'])
def wrap(items,ind='  ',w=110):
    out=[];l=ind
    for i in items:
        if len(l)+len(i)+1>w: out.append(l.rstrip()); l=ind
        l+=i+' '
    out.append(l.rstrip()); return '\n'.join(out)
ALLN=list(T.N)+list(T.STR)+list(T.I)
def flags():
    res={}
    for f in ['actions','annotations','font','forms','structure']:
        src=open(f'/repo/src/{f}.rs').read().split('\n'); cur=None
        for i,l in enumerate(src):
            g=re.match(r'    pub struct (\w+): u32',l)
            if g: cur=g.group(1); res[cur]=(f,i+1,[])
            elif l.startswith('    }'): cur=None
            g=re.match(r'        const (\w+) = (.*);',l)
            if g and cur: res[cur][2].append((g.group(1),g.group(2)))
    return res
FL=flags()
def camel(s): return ''.join(p.capitalize() for p in s.split('_'))
def main():
    m=['(** Model of the enum and flag arguments of the typed writers.  Generated by gen/gen_enums.py from the source text. *)','',
    'From Coq Require Import ZArith List.','From Verif Require Import Bytes ModelFloat ModelBuf ModelObject.','Import ListNotations.','Local Open Scope Z_scope.','']
    for E in ALLN:
        if E in REUSE: continue
        e=enums[E]; vs=variants(E)
        if E in T.I and not e['fns']:
            m.append(f"(** src/{e['file']}.rs:{e['line']}-{e['line']+2*len(vs)+1} (written with [as i32]). *)")
            tab=dict(re.match(r'(\w+) = (\d+)',v).groups() for v in e['vars'])
        else:
            (k,(l0,l1,_,body)),=[x for x in e['fns'].items() if x[0] in('to_name','to_int','to_i32','to_str')]
            m.append(f"(** src/{e['file']}.rs:{e['line']}, {l0}-{l1} [{k}]. *)")
            tab=dict(re.findall(r'(?:Self|\w+)::(\w+) => (?:Name\(b"|Str\(b")?([^"(),]+)(?:"\))?,',body))
        cs=[f'| {ctor(E,v)}' for v in vs]+([f'| {E}_Custom (name : bytes)'] if custom(E) else [])
        m.append(f'Inductive {E} :=\n'+wrap(cs)+'.')
        if E in T.I:
            m.append(f'Definition {E}_int (x : {E}) : Z :=\n  match x with\n'+wrap([f'| {ctor(E,v)} => {tab[v]}' for v in vs])+'\n  end.')
        else:
            arms=[f'| {ctor(E,v)} => lit "{tab[v]}"' for v in vs]+([f'| {E}_Custom name => name'] if custom(E) else [])
            m.append(f'Definition {fn(E)} (x : {E}) : bytes :=\n  match x with\n'+wrap(arms)+'\n  end.')
        m.append('')
    # attribute owners
    e=enums['AttributeOwner']; vs=variants('AttributeOwner')
    l0,l1,_,body=e['fns']['to_name']
    plain=dict(re.findall(r'Self::(\w+) => Name\(b"([^"]*)"\)',body)); new=dict(re.findall(r'Self::(\w+) if iso32000_2_2020 => Name\(b"([^"]*)"\)',body))
    m.append(f"(** src/attributes.rs:{e['line']}, {l0}-{l1} [to_name(iso32000_2_2020)]. *)")
    m.append('Inductive AttributeOwner :=\n'+wrap([f'| AttributeOwner_{v}' for v in vs])+'.')
    m.append('Definition AttributeOwner_name (x : AttributeOwner) (iso32000_2_2020 : bool) : bytes :=\n  match x with\n'+
      wrap([f'| AttributeOwner_{v} => '+(f'if iso32000_2_2020 then lit "{new[v]}" else lit "{plain[v]}"' if v in new else f'lit "{plain[v]}"') for v in vs])+'\n  end.\n')
    for X,(f,l,fs) in FL.items():
        m.append(f'(** src/{f}.rs:{l} (a bitflags type; [as i32] keeps the value as all flags are below bit 31). *)')
        m.append(f'Inductive {X} :=\n'+wrap([f'| {X}_{camel(n)}' for n,_ in fs])+'.')
        def val(v):
            g=re.match(r'1 << (\d+)$',v); return f'Z.shiftl 1 {g.group(1)}' if g else v
        m.append(f'Definition {X}_bit (x : {X}) : Z :=\n  match x with\n'+wrap([f'| {X}_{camel(n)} => {val(v)}' for n,v in fs])+'\n  end.\n')
    open(OUT+'ModelEnums.v','w').write('\n'.join(m))
    s=['(** Specification: the tables of ISO 32000-2:2020 (and 32000-1 where noted) for the enum and flag arguments.',
    '    They are the reader\'s tables: from what is in the file to what it means. *)','',
    'From Coq Require Import ZArith List Bool.','From Verif Require ModelContent ModelCmap.','From Verif Require Import Bytes ModelFloat ModelBuf ModelObject ModelTw ModelEnums SpecLex SpecObj SpecMeans SpecTyped SpecColor SpecTw.',
    'Import ListNotations.','Local Open Scope Z_scope.','',
    '(** Looking up a name or a number. *)',
    'Fixpoint by_name {E} (n : bytes) (table : list (bytes * E)) : option E :=',
    '  match table with [] => None | (m, x) :: r => if bytes_eqb n m then Some x else by_name n r end.',
    'Fixpoint by_number {E} (n : Z) (table : list (Z * E)) : option E :=',
    '  match table with [] => None | (m, x) :: r => if n =? m then Some x else by_number n r end.',
    'Definition is_named {E} (table : list (bytes * E)) (x : E) (v : val) : Prop := exists n, v = VName n /\\ by_name n table = Some x.',
    'Definition is_str_of {E} (table : list (bytes * E)) (x : E) (v : val) : Prop := exists n, v = VStr n /\\ by_name n table = Some x.',
    'Definition is_numbered {E} (table : list (Z * E)) (x : E) (v : val) : Prop := exists n, v = VInt n /\\ by_number n table = Some x.','']
    def pairs(t): return [(p.split('=')+[p])[:2] if '=' in p else [p,p] for p in t.split()]
    for E in ALLN:
        ref,t=(T.N.get(E) or T.STR.get(E) or T.I[E])
        ps=pairs(t); assert set(a for a,_ in ps)==set(variants(E)),(E,set(a for a,_ in ps)^set(variants(E)))
        K='Z' if E in T.I else 'bytes'
        q=(lambda b:b) if E in T.I else (lambda b:f'lit "{b}"')
        items=[f'({q(b)}, {ctor(E,a)})'+(';' if i<len(ps)-1 else '') for i,(a,b) in enumerate(ps)]
        s.append(f'(** {ref}. *)')
        s.append(f'Definition {E}_table : list ({K} * {ty(E)}) := [\n'+wrap(items)+'\n  ].')
        if custom(E):
            s.append(f'Definition is_{E} (x : {E}) (v : val) : Prop :=\n  match x with {E}_Custom n => v = VName n | _ => is_named {E}_table x v end.')
            s.append(f'Definition {E}_ok (x : {E}) : bool := match x with {E}_Custom n => name_ok n | _ => true end.')
        else:
            k='is_numbered' if E in T.I else 'is_str_of' if E in T.STR else 'is_named'
            s.append(f'Definition is_{E} (x : {ty(E)}) (v : val) : Prop := {k} {E}_table x v.')
        s.append('')
    for nm,t in (('2020',T.OWNER_2020),('old',T.OWNER_OLD)):
        ps=pairs(t); assert set(a for a,_ in ps)==set(variants('AttributeOwner'))
        s.append(f'(** Table 376 '+('(2020).' if nm=='2020' else '(before 2020: the CSS versions are written with two decimals).')+' *)')
        s.append(f'Definition AttributeOwner_table_{nm} : list (bytes * AttributeOwner) := [\n'+wrap([f'(lit "{b}", AttributeOwner_{a})'+(';' if i<len(ps)-1 else '') for i,(a,b) in enumerate(ps)])+'\n  ].')
    s.append('Definition is_AttributeOwner (x : AttributeOwner) (iso2020 : bool) (v : val) : Prop :=\n  is_named (if iso2020 then AttributeOwner_table_2020 else AttributeOwner_table_old) x v.\n')
    for X,(ref,t) in T.F.items():
        ps=pairs(t); assert set(a for a,_ in ps)==set(n for n,_ in FL[X][2]),X
        s.append(f'(** {ref}: bit positions, from 1 for the low-order bit. *)')
        s.append(f'Definition {X}_pos (x : {X}) : Z :=\n  match x with\n'+wrap([f'| {X}_{camel(a)} => {b}' for a,b in ps])+'\n  end.\n')
    open(OUT+'SpecEnums.v','w').write('\n'.join(s))
    p=['(** Proofs about the enum and flag arguments. Generated by gen/gen_enums.py. *)','',
    'From Coq Require Import ZArith List Bool Lia.','From Verif Require ModelContent ModelCmap.','From Verif Require Import Bytes ModelFloat ModelBuf ModelObject ModelTw ModelEnums SpecLex SpecObj SpecMeans SpecTyped SpecColor SpecTw SpecEnums',
    '  ProofTyped ProofTw.','Import ListNotations.','Local Open Scope Z_scope.','',
    'Lemma good_named {E} (t : list (bytes * E)) n x : name_ok n = true -> by_name n t = Some x -> good (OPrim (PName n)) (is_named t x).',
    'Proof. intros H K. split; [rewrite fine_name; exact H|]. intros v M. apply m_name in M. exists n. split; assumption. Qed.',
    'Lemma good_str_of {E} (t : list (bytes * E)) n x : by_name n t = Some x -> good (OPrim (PStr n)) (is_str_of t x).',
    'Proof. intros K. split; [reflexivity|]. intros v M. apply m_str in M. exists n. split; assumption. Qed.',
    'Lemma good_numbered {E} (t : list (Z * E)) n x : in_i32 n = true -> by_number n t = Some x -> good (OPrim (PInt n)) (is_numbered t x).',
    'Proof. intros H K. split; [rewrite fine_int; exact H|]. intros v M. apply m_int in M. exists n. split; assumption. Qed.','']
    hints=[]
    for E in ALLN:
        P='PInt' if E in T.I else 'PStr' if E in T.STR else 'PName'
        if custom(E):
            p.append(f'Lemma good_{E} x : {E}_ok x = true -> good (OPrim ({P} ({fn(E)} x))) (is_{E} x).\nProof. destruct x; intro H; first [apply good_name; exact H|apply good_named; reflexivity]. Qed.')
        else:
            tac={'PInt':'apply good_numbered','PStr':'apply good_str_of','PName':'apply good_named'}[P]
            p.append(f'Lemma good_{E} x : good (OPrim ({P} ({fn(E)} x))) (is_{E} x).\nProof. destruct x; {tac}; reflexivity. Qed.')
        hints.append(f'good_{E}')
    p.append('Lemma good_AttributeOwner x b : good (OPrim (PName (AttributeOwner_name x b))) (is_AttributeOwner x b).\nProof. destruct x, b; apply good_named; reflexivity. Qed.'); hints.append('good_AttributeOwner')
    for X in T.F:
        p.append(f'Lemma good_{X} l : good (OPrim (PInt (flags_bits {X}_bit l))) (is_flags {X}_pos l).\nProof. apply good_flags. intros []; split; [cbn; lia|reflexivity|cbn; lia|reflexivity|..]; first [cbn; lia|reflexivity]. Qed.'.replace('split; [cbn; lia|reflexivity|cbn; lia|reflexivity|..]; first','split; first'))
        hints.append(f'good_{X}')
    p.append('\n#[export] Hint Resolve '+' '.join(hints)+' : tw.')
    open(OUT+'ProofEnums.v','w').write('\n'.join(p)+'\n')
    # properties
    q=['(** C43: enum and flag arguments. *)','',
    'From Coq Require Import ZArith List Bool.','From Verif Require ModelContent ModelCmap ModelPdf SpecPdf.','From Verif Require Import Bytes ModelFloat ModelBuf ModelObject ModelTw ModelEnums SpecLex SpecObj SpecMeans SpecTyped SpecColor SpecTw SpecEnums',
    '  ProofTyped ProofTw ProofEnums.','Import ListNotations.','Local Open Scope Z_scope.','',
    '(** Every argument that is written as a name reads back, through the table of the standard, as',
    '    that argument: in particular no two variants of an enum are written alike. *)',
    'Theorem C43_names :']
    cl=[]
    for E in T.N:
        cl.append(f'(forall x : {ty(E)}, '+(f'{E}_ok x = true -> ' if custom(E) else '')+f'reads (OPrim (PName ({fn(E)} x))) (is_{E} x))')
    cl.append('(forall x iso2020, reads (OPrim (PName (AttributeOwner_name x iso2020))) (is_AttributeOwner x iso2020))')
    q.append('  '+' /\\\n  '.join(cl)+'.')
    q.append('Proof. repeat split; intros; apply good_reads; auto with tw. Qed.\n')
    q.append('(** Arguments that are written as strings or numbers. *)\nTheorem C43_numbers_and_strings :')
    cl=[f'(forall x : {ty(E)}, reads (OPrim ({"PStr" if E in T.STR else "PInt"} ({fn(E)} x))) (is_{E} x))' for E in list(T.STR)+list(T.I)]
    q.append('  '+' /\\\n  '.join(cl)+'.\nProof. repeat split; intros; apply good_reads; auto with tw. Qed.\n')
    q.append('(** Sets of flags: the bits at the positions of the given flags are set, and no others. *)\nTheorem C43_flags :')
    cl=[f'(forall l, reads (OPrim (PInt (flags_bits {X}_bit l))) (is_flags {X}_pos l))' for X in T.F]
    q.append('  '+' /\\\n  '.join(cl)+'.\nProof. repeat split; intros; apply good_reads; auto with tw. Qed.\n')
    q.append('''(** Two variants that are written with the same name are the same. *)
Theorem C43_distinct :''')
    cl=[]
    for E in ALLN:
        if custom(E):
            cl.append(f'(forall x y : {E}, (forall n, x <> {E}_Custom n) -> (forall n, y <> {E}_Custom n) -> {fn(E)} x = {fn(E)} y -> x = y)')
        else: cl.append(f'(forall x y : {ty(E)}, {fn(E)} x = {fn(E)} y -> x = y)')
    q.append('  '+' /\\\n  '.join(cl)+'''.
Proof.
  repeat split; intros x y;
  match goal with
  | |- _ -> _ -> ?f _ = ?f _ -> _ =>
      intros Hx Hy E; destruct x; try (exfalso; eapply Hx; reflexivity);
      destruct y; try (exfalso; eapply Hy; reflexivity); first [reflexivity | discriminate E]
  | |- _ => intro E; destruct x, y; first [reflexivity | discriminate E]
  end.
Qed.

(** Owners are distinct within an edition of the standard. *)
Theorem C43_owners_distinct : forall x y b, AttributeOwner_name x b = AttributeOwner_name y b -> x = y.
Proof. intros x y b E. destruct b, x, y; first [reflexivity | discriminate E]. Qed.

(** Concrete cases. *)
Example C43_case_name : reads (OPrim (PName (lit "GoToR"))) (is_ActionType ActionType_RemoteGoTo).
Proof. apply (proj1 C43_names ActionType_RemoteGoTo). Qed.
Example C43_case_custom : AnnotationIcon_ok (AnnotationIcon_Custom (lit "Star")) = true.
Proof. reflexivity. Qed.
Example C43_case_flags : flags_bits FontFlags_bit [FontFlags_Symbolic; FontFlags_Italic; FontFlags_Symbolic] = 68.
Proof. reflexivity. Qed.
''')
    open(OUT+'PropEnums.v','w').write('\n'.join(q))
if __name__=='__main__': main()
