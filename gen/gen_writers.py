# Writes ModelTw<G>.v, SpecTw<G>.v, ProofTw<G>.v, PropTw<G>.v for every group G of typed writers.
# The model side comes from the method bodies in /repo/src, the specification side from the
# signatures and the documentation comments (the key is the first `/Key` of the comment);
# methods of another shape are in writers_hand.py.
import re,sys
sys.path.insert(0,'/verif/gen')
import scan, iso_tables as T, gen_enums as G
OUT='/verif/rocq/theories/'
class K:
    def __init__(s,t,obj,pred,ok,sample,partial=False,allowed=None): s.t,s.obj,s.pred,s.ok,s.sample,s.partial,s.allowed=t,obj,pred,ok,sample,partial,allowed
def prim(t,c,pred,ok,sample): return K(t,lambda x:f'OPrim ({c} {x})',lambda x:f'{pred} {x}',(lambda x:f'{ok} {x}') if ok else None,sample)
ONE='(FFin false 8388608 (-23))'
kinds={
 'Ref':prim('Z','PRef','is_ref','ref_ok','7'),'i32':prim('Z','PInt','is_int','in_i32','(-3)'),'f32':prim('f32','PReal','is_real','real_ok',ONE),
 'bool':prim('bool','PBool','is_bool',None,'true'),'Name':prim('bytes','PName','is_name','name_ok','(lit "a b")'),'Str':prim('bytes','PStr','is_str',None,'(lit "x(y")'),
 'TextStr':prim('list Z','PText','is_text','text_ok','[960; 65]'),'&str':prim('list Z','PText','is_text','text_ok','[65]'),
 'Date':prim('date','PDate','is_date_of','date_ok','(date_new 2024)'),'Rect':prim('rect','PRect','is_rect','rect_ok',f'(mkRect f32_zero f32_zero {ONE} {ONE})'),
 'u8':prim('Z','PInt','is_int','u8_ok','12'),'u16':prim('Z','PInt','is_int','u16_ok','700'),
 'impl TextStrLike':K('textlike',lambda x:f'OPrim (text_prim {x})',lambda x:f'is_textlike {x}',lambda x:f'textlike_ok {x}','(TextPlain [97; 128512])'),
 '[f32; 3]':K('f3',lambda x:f'reals (l3 {x})',lambda x:f'is_reals (in_order3 {x})',lambda x:f'ok3 {x}',f'(f32_zero, {ONE}, f32_zero)'),
 '[f32; 4]':K('f4',lambda x:f'reals (l4 {x})',lambda x:f'is_reals (in_order4 {x})',lambda x:f'ok4 {x}',f'(f32_zero, {ONE}, f32_zero, f32_zero)'),
 '[f32; 6]':K('f6',lambda x:f'reals (l6 {x})',lambda x:f'is_reals (in_order6 {x})',lambda x:f'ok6 {x}',f'(({ONE}, f32_zero, f32_zero), ({ONE}, f32_zero, f32_zero))'),
 '[bool; 2]':K('bool * bool',lambda x:f'bools [fst {x}; snd {x}]',lambda x:f'is_array_of is_bool [fst {x}; snd {x}]',None,'(true, false)'),
 '[Str; 2]':K('bytes * bytes',lambda x:f'arr_of (fun s => OPrim (PStr s)) [fst {x}; snd {x}]',lambda x:f'is_array_of is_str [fst {x}; snd {x}]',None,'(lit "a", lit "b")'),
 'iter f32':K('list f32',lambda x:f'reals {x}',lambda x:f'is_reals {x}',lambda x:f'forallb real_ok {x}',f'[{ONE}; f32_zero]'),
 'iter Ref':K('list Z',lambda x:f'refs {x}',lambda x:f'is_refs {x}',lambda x:f'forallb ref_ok {x}','[3; 4]'),
 'iter i32':K('list Z',lambda x:f'ints {x}',lambda x:f'is_array_of is_int {x}',lambda x:f'forallb in_i32 {x}','[1; -2]'),
 'iter Name':K('list bytes',lambda x:f'names {x}',lambda x:f'is_names {x}',lambda x:f'forallb name_ok {x}','[lit "A"; lit "B"]'),
 'iter Str':K('list bytes',lambda x:f'arr_of (fun s => OPrim (PStr s)) {x}',lambda x:f'is_array_of is_str {x}',None,'[lit "A"; lit "B"]'),
 'iter TextStr':K('list (list Z)',lambda x:f'arr_of (fun t => OPrim (PText t)) {x}',lambda x:f'is_array_of is_text {x}',lambda x:f'forallb text_ok {x}','[[65]; [960]]'),
 'Dict':K('list (bytes * obj)',lambda x:f'ODict {x}',lambda x:f'means (ODict {x})',lambda x:f'obj_arg_ok (ODict {x})','[(lit "F1", OPrim (PRef 9))]'),
 'Obj':K('obj',lambda x:f'{x}',lambda x:f'means {x}',lambda x:f'obj_arg_ok {x}','(OArray [OPrim (PInt 1)])'),
 'TypedArray Dict':K('list (list (bytes * obj))',lambda x:f'arr_of ODict {x}',lambda x:f'is_array_of (fun d => means (ODict d)) {x}',lambda x:f'forallb (fun d => obj_arg_ok (ODict d)) {x}','[[(lit "K", OPrim (PInt 5))]]'),
 'TypedDict Ref':K('list (bytes * Z)',lambda x:f'dict_of (fun r => OPrim (PRef r)) {x}',lambda x:f'is_dict_of is_ref {x}',lambda x:f'dict_ok ref_ok {x}','[(lit "a", 3)]'),
 'NameTree':K('list name_tree_call',lambda x:f'name_tree_obj {x}',lambda x:f'is_name_tree {x}',lambda x:f'forallb name_tree_ok {x}','[NtNames [(lit "a", PRef 3)]]'),
 'NumberTree':K('list number_tree_call',lambda x:f'number_tree_obj {x}',lambda x:f'is_number_tree {x}',lambda x:f'forallb number_tree_ok {x}','[MtNums [(0, PRef 3)]]'),
 'ColorSpace':K('cs',lambda x:f'cs_obj {x}',lambda x:f'cs_reads {x}',lambda x:f'cs_ok {x}','(CsIccBased 5)',True,lambda x:f'cs_allowed {x}'),
 'Differences':K('list (Z * list bytes)',lambda x:f'diff_obj {x}',lambda x:f'is_differences {x}',lambda x:f'forallb diff_ok {x}','[(65, [lit "alpha"])]'),
 'Widths':K('list width_call',lambda x:f'width_obj {x}',lambda x:f'is_widths {x}',lambda x:f'forallb width_ok {x}',f'[WSame 3 9 {ONE}]'),
 'Filter':K('filter',lambda x:f'OPrim (PName (filter_name {x}))',lambda x:f'is_filter {x}',None,'FlateDecode'),
 'LineHeight':K('LineHeight',lambda x:f'LineHeight_obj {x}',lambda x:f'is_LineHeight {x}',lambda x:f'LineHeight_ok {x}',f'(LineHeight_Custom {ONE})'),
 'GlyphOrientationVertical':K('GlyphOrientationVertical',lambda x:f'GlyphOrientationVertical_obj {x}',lambda x:f'is_GlyphOrientationVertical {x}',lambda x:f'GlyphOrientationVertical_ok {x}','(GlyphOrientationVertical_Angle 90)'),
 'TransitionAngle':K('TransitionAngle',lambda x:f'TransitionAngle_obj {x}',lambda x:f'is_TransitionAngle {x}',None,'TransitionAngle_TopToBottom'),
 'MdpSignatureType':K('MdpSignatureType',lambda x:f'OPrim (PInt (MdpSignatureType_int {x}))',lambda x:f'is_MdpSignatureType {x}',None,'MdpSignatureType_ApprovalSignature'),
 'SystemInfo':K('ModelCmap.system_info',lambda x:f'system_info_obj {x}',lambda x:f'is_system_info {x}',lambda x:f'system_info_ok {x}','(ModelCmap.mkSystemInfo (lit "Adobe") (lit "Identity") 0)'),
 'StructRole2':K('StructRole2',lambda x:f'OPrim (PName (role2_name {x}))',lambda x:f'is_StructRole2 {x}',lambda x:f'role2_ok {x}','(StructRole2_Heading 7)'),
 'OptText':K('option (list Z)',lambda x:f'text_or_null {x}',lambda x:f'is_text_or_null {x}',lambda x:f'opt_text_ok {x}','None'),
 'AppearanceEntry':K('AppearanceEntry_call',lambda x:f'AppearanceEntry_obj {x}',lambda x:f'AppearanceEntry_reads {x}',lambda x:f'AppearanceEntry_ok {x}','(AppearanceEntry_streams [(lit "On", 4)])'),
 'TrackSizes':K('TrackSizes_call',lambda x:f'TrackSizes_obj {x}',lambda x:f'TrackSizes_reads {x}',lambda x:f'TrackSizes_ok {x}','(TrackSizes_individual [f32_zero])'),
 'Sides f32':K('sides f32',lambda x:f'sides_reals {x}',lambda x:f'is_sides_reals {x}',lambda x:f'all_sides real_ok {x}','(sides_uniform f32_zero)'),
 'Sides f3':K('sides f3',lambda x:f'sides_colors {x}',lambda x:f'is_sides_colors {x}',lambda x:f'all_sides ok3 {x}','(sides_uniform (f32_zero, f32_zero, f32_zero))'),
 'Sides style':K('sides border_style',lambda x:f'sides_styles {x}',lambda x:f'is_sides_styles {x}',None,'(mkSides BsSolid BsNone BsSolid BsSolid)'),
 'KeyUsages':K('list CertificateKeyUsage',lambda x:f'arr_of (fun u => OPrim (PStr (into_ascii u))) {x}',lambda x:f'is_array_of is_key_usage {x}',None,'[mkKeyUsage (Some true) None None None None (Some false) None None None]'),
 'OptF32':K('option f32',None,None,lambda x:f'opt_ok real_ok {x}',f'None'),
 'OptDash':K('option (list f32)',None,None,lambda x:f'dash_ok {x}',f'(Some [{ONE}])'),
 'iter textlike':K('list textlike',None,None,lambda x:f'forallb textlike_ok {x}','[TextPlain [65]]'),
 'iter pair':K('list (textlike * list Z)',None,None,lambda x:f'forallb pair_ok {x}','[(TextPlain [65], [66])]'),
 'AttributeOwner':K('AttributeOwner',None,None,None,'AttributeOwner_Css2'),
 'byte':K('Byte.byte',None,None,None,'Byte.x05'),
 'panose':K('bytes',None,None,lambda x:f'(blen {x} =? 10)','(lit "abcdefghij")'),
}
for E in list(T.N)+list(T.STR)+list(T.I):
    P='PInt' if E in T.I else 'PStr' if E in T.STR else 'PName'
    def mk(E=E,P=P):
        return K(G.ty(E),lambda x:f'OPrim ({P} ({G.fn(E)} {x}))',lambda x:f'is_{E} {x}',(lambda x:f'{E}_ok {x}') if G.custom(E) else None,
                 f'({E}_Custom (lit "Zz"))' if G.custom(E) else G.ctor(E,G.variants(E)[-1]))
    kinds[E]=mk()
    kinds['iter '+E]=K(f'list {G.ty(E)}',lambda x,E=E,P=P:f'arr_of (fun e => OPrim ({P} ({G.fn(E)} e))) {x}',lambda x,E=E:f'is_array_of is_{E} {x}',None if not G.custom(E) else lambda x,E=E:f'forallb {E}_ok {x}','['+(G.ctor(E,G.variants(E)[0]))+']')
for X in T.F:
    kinds[X]=K(f'list {X}',lambda x,X=X:f'OPrim (PInt (flags_bits {X}_bit {x}))',lambda x,X=X:f'is_flags {X}_pos {x}',None,
      '['+'; '.join(f'{X}_{G.camel(n)}' for n,_ in G.FL[X][2][-2:])+']')
def sub(W,partial,noraw,array):
    t=f'{W}_calls'
    kinds[W]=K(t,lambda x:f'{W}_obj {x}',lambda x:f'{W}_reads {x}',lambda x:f'{W}_ok {x}',f'{W}_sample',partial,lambda x:f'{W}_allowed {x}')
    if not partial:
        kinds['TypedArray '+W]=K(f'list {W}_calls',lambda x:f'arr_of {W}_obj {x}',lambda x:f'is_array_of {W}_reads {x}',lambda x:f'forallb {W}_ok {x}',f'[{W}_sample; []]')
        kinds['TypedDict '+W]=K(f'list (bytes * {W}_calls)',lambda x:f'dict_of {W}_obj {x}',lambda x:f'is_dict_of {W}_reads {x}',lambda x:f'dict_ok {W}_ok {x}',f'[(lit "K1", {W}_sample)]')
RES={'names','refs','reals','ints','bools','lit','as','in','end','type','Type','match','at','where','filter','means','range','page','line','text','size','id','fst','snd','map','length','date','border_items','rect','digits','ok','call','obj','version','with','kind','next','if','then','else','using','fun','forall','exists','let','fix','return','struct','measure','name','cs'}
def cident(x): return x+'_' if x in {'names','refs','reals','ints','bools','lit','as','in','end','match','at','where','with','using','fst','snd','map','cs','left','right','inl','inr','pair','eq','length','app','not'} else x
def argkind(t):
    t=t.strip()
    t=re.sub(r"<'[\w_]+>",'',t)
    g=re.match(r'impl IntoIterator<Item = (.*)>$',t)
    if g: return 'iter '+g.group(1)
    return t
def retkind(t):
    t=re.sub(r"<'[\w_]+>",'',t.strip()); t=re.sub(r"'\w+, ",'',t)
    g=re.match(r"(TypedArray|TypedDict)<(?:'_, )?(.*)>$",t)
    if g:
        x=g.group(2)
        if g.group(1)=='TypedArray' and x in('Ref','Str','Name'): return 'iter '+x
        return g.group(1)+' '+x
    g=re.match(r"(NameTree|NumberTree)<",t)
    if g: return g.group(1)
    return t
def sigargs(sig):
    s=re.sub(r"^pub fn \w+(<.*?>)?\(",'',sig)
    g=re.match(r'(.*)\) -> (.*?) \{$',s)
    a,ret=(g.group(1),g.group(2)) if g else (s[:s.rindex(')')],'')
    a=re.sub(r'^\s*(&mut self|mut self|self)\s*,?','',a).strip().rstrip(',')
    return [tuple(p.strip().split(': ',1)) for p in re.split(r', (?=\w+: )',a) if ': ' in p],ret
def dockey(doc):
    g=re.search(r'`/(\w+)`',doc) or re.search(r'`(\w+)`',doc)
    return g.group(1) if g else None
class M: pass
def conj(l):
    l=[x for x in l if x]
    return ' && '.join(l) if l else 'true'
def auto(W,r,keyfix):
    f,l0,l1,ty,name,sig,body,doc=r
    c=scan.classify(body)
    if c[0]=='other': return None
    args,ret=sigargs(sig)
    m=M(); m.name=name; m.cite=f'src/{f}.rs:{l0}-{l1}'; m.note=''
    key=c[1][0]; sk=keyfix.get(f'{W}::{name}') or dockey(doc)
    if sk is None: raise Exception(f'no doc key {W}::{name}: {doc}')
    if isinstance(sk,tuple): sk,m.note=sk
    elif sk!=key: raise Exception(f'key mismatch {W}::{name} code {key} doc {sk}')
    A=[(cident(n),argkind(t)) for n,t in args]
    if c[0]=='start' or c[0]=='startwith':
        if args: raise Exception('args in start '+name)
        k=kinds[retkind(ret)]; x={'Dict':'entries'}.get(retkind(ret),'calls') if retkind(ret) in ('Dict',) or retkind(ret) in WR else ('items' if retkind(ret).startswith(('Typed','iter')) else 'x')
        m.args=[(x,k)]; m.entries=[(key,k.obj(x),k.partial)]; m.doc=[(sk,k.pred(x))]
    else:
        e=c[1][1]
        ks=[kinds[t] for _,t in A]
        m.args=[(n,k) for (n,_),k in zip(A,ks)]
        if len(A)==1:
            n,t=A[0]; rust=args[0][0]; k=ks[0]
            okexpr={rust,f'{rust}.to_name()',f'{rust}.to_int()',f'{rust}.to_i32()',f'{rust}.to_str()',f'{rust}.bits() as i32',f'{rust} as i32',f'i32::from({rust})',f'TextStr({rust})'}
            if e not in okexpr: return None
            if e==f'{rust} as i32' and t=='bool': return None
            isenum=t in T.N or t in T.STR or t in T.I
            if ('to_' in e)!=(isenum and ' as ' not in e or t in('Filter','MdpSignatureType')): return None
            m.entries=[(key,k.obj(n),False)]; m.doc=[(sk,k.pred(n))]
        else:
            g=re.match(r'\[(.*)\]$',e)
            if not(g and all(t=='f32' for _,t in A)): return None
            l='; '.join(cident(x.strip()) for x in g.group(1).split(','))
            m.entries=[(key,f'reals [{l}]',False)]
            m.doc=[(sk,f'is_reals ['+'; '.join(n for n,_ in A)+']')]
    return m
import writers_hand as H
WR=H.WRITERS
for g,ws in H.GROUPS:
    for W in ws:
        w=WR[W]; sub(W,w.get('partial',False),w.get('noraw',False),w.get('array',False))
def methods(W):
    w=WR[W]; out=[]; seen=set()
    src=w.get('impl',W)
    rows=[r for r in scan.rows if r[3]==src and (('lines' not in w) or w['lines'][0]<=r[1]<=w['lines'][1]) and r[0]==w['file']]
    for r in rows:
        name=r[4]
        if f'{W}::{name}' in H.SKIP: continue
        h=H.HAND.get(f'{W}::{name}')
        if h is None:
            m=auto(W,r,H.KEYS)
            if m is None: raise Exception(f'no hand rule for {W}::{name} | {r[5]} | {r[6]}')
            out.append(m)
        else:
            m=M(); m.name=name; m.cite=f'src/{r[0]}.rs:{r[1]}-{r[2]}'; m.note=h.get('note','')
            m.args=[(n,kinds[t]) for n,t in h['args']]; m.h=h; out.append(m)
    for n,cite,h in w.get('extra',[]):
        m=M(); m.name=n; m.cite=cite; m.note=h.get('note',''); m.args=[(x,kinds[t]) for x,t in h['args']]; m.h=h; out.append(m)
    return out
def head(groups_before):
    return ''
def sanitize(s): return s
def gen(gname,ws,prev):
    reqM=' '.join(f'ModelTw{g}' for g in prev); reqS=' '.join(f'SpecTw{g}' for g in prev); reqP=' '.join(f'ProofTw{g}' for g in prev)
    base='Bytes ModelFloat ModelBuf ModelObject ModelColor ModelSmall ModelPdf ModelTw ModelEnums ModelRoles ModelTwArgs '
    specb='SpecLex SpecObj SpecText SpecMeans SpecPdf SpecTyped SpecColor SpecSmall SpecTw SpecEnums SpecRoles SpecTwArgs '
    imp=lambda l:'From Coq Require Import ZArith List Bool.\nFrom Verif Require ModelContent ModelCmap.\nFrom Verif Require Import '+l.strip()+'.\nImport ListNotations.\nLocal Open Scope Z_scope.\n'
    mo=[f'(** Model of typed writers: {H.TITLE[gname]}.  Generated by gen/gen_writers.py from the source text. *)\n',imp(base+reqM)]
    sp=[f'(** Specification of typed writers: {H.TITLE[gname]}: the entries of every method, from its signature and documentation,\n    and the conditions on its arguments. *)\n',imp(base+reqM+f' ModelTw{gname} '+specb+reqS)]
    pr=[f'(** Proofs about typed writers: {H.TITLE[gname]}.  Generated by gen/gen_writers.py. *)\n',imp(base+reqM+f' ModelTw{gname} '+specb+reqS+f' SpecTw{gname} ProofTyped ProofColor ProofTw ProofEnums ProofTwArgs '+reqP)]
    pp=[f'(** Properties of typed writers: {H.TITLE[gname]}. *)\n',imp(base+reqM+f' ModelTw{gname} ModelChunk '+specb+reqS+f' SpecTw{gname} SpecChunk ProofTyped ProofColor ProofTw ProofEnums ProofTwArgs '+reqP+f' ProofTw{gname}')]
    thms=[]
    for W in ws:
        w=WR[W]; ms=methods(W); partial=w.get('partial',False); noraw=w.get('noraw',False); array=w.get('array',False); stream=w.get('stream',False); plain=w.get('plain',False)
        reserved={'call','calls','entries','obj','doc','head','header','ok','call_ok','reads','allowed','call_allowed','sample','items','dict'}
        cname={}
        for m in ms:
            n=m.name
            if n in reserved: n=n+'_m'
            cname[m.name]=f'{W}_{n}'
        if w.get('raw_coq'):
            mo.append(w['raw_coq']['model']); sp.append(w['raw_coq']['spec']); pr.append(w['raw_coq']['proof'])
        else:
            mo.append(f"(** ** {W} ({w['cite']}) *)\n")
            mo.append(f'Inductive {W}_call :=')
            for m in ms:
                a=''.join(f' ({n} : {k.t})' for n,k in m.args)
                mo.append(f'| {cname[m.name]}{a}')
            mo[-1]+='.'
            # entries
            E='items' if array else 'entries'
            rt='list obj' if array else 'list (bytes * obj)'
            if partial or stream: rt=f'option ({rt})'
            mo.append(f'Definition {W}_{E} (c : {W}_call) : {rt} :=\n  match c with')
            sp.append(f'(** ** {W} *)\n')
            if not array:
                sp.append(f"(** Written by the constructor{': nothing' if not w['head'] else ''}. *)")
                sp.append(f'Definition {W}_head : list entry_spec := ['+'; '.join(f'(lit "{k}", {v})' for k,v in w['head'])+'].')
            dt='list (val -> Prop)' if array else 'list entry_spec'
            sp.append(f'Definition {W}_doc (c : {W}_call) : {dt} :=\n  match c with')
            oks=[]; allows=[]
            for m in ms:
                pat=f"{cname[m.name]}"+''.join(f' {n}' for n,_ in m.args)
                h=getattr(m,'h',None)
                argoks=[k.ok(n) if k.ok else None for n,k in m.args]
                if h:
                    em=h['model']; ed=h['spec']; cond=h.get('cond'); al=h.get('allowed')
                    subp=[ (n,k) for n,k in m.args if k.partial]
                    if partial or stream:
                        if cond: em=f'if {cond} then Some {em} else None'
                        elif h.get('opt'): pass
                        else: em=f'Some {em}' if em.startswith('[') else f'Some ({em})'
                    if 'ok' in h: argoks.append(h['ok'])
                    allowed=al or 'True'
                else:
                    if any(p for _,_,p in m.entries):
                        (k,o,_),=m.entries; em=f'sub_entry (lit "{k}") ({o})'
                        allowed=m.args[0][1].allowed(m.args[0][0])
                    else:
                        em='['+'; '.join(f'(lit "{k}", {o})' for k,o,_ in m.entries)+']'
                        if partial or stream: em='Some '+em
                        allowed='True'
                    ed='['+'; '.join(f'(lit "{k}", {p})' for k,p in m.doc)+']'
                mo.append(f'  | {pat} => {em}   (* {m.cite} *)')
                sp.append(f'  | {pat} => {ed}'+(f'   (* {m.note} *)' if m.note else ''))
                oks.append(f'  | {pat} => {conj(argoks)}'); allows.append(f'  | {pat} => {allowed}')
            mo.append('  end.'); sp.append('  end.')
            # unused-variable-free ok function
            def clean(lines):
                out=[]
                for l in lines:
                    lhs,rhs=l.split(' => ',1)
                    parts=lhs.split(' ')
                    # parts: '', '', '|', ctor, args
                    ctor=parts[3]; av=parts[4:]
                    av=[a if re.search(r'\b'+re.escape(a)+r'\b',rhs) else '_' for a in av]
                    out.append('  | '+' '.join([ctor]+av)+' => '+rhs)
                return out
            oks=clean(oks); allows=clean(allows)
            sp.append(f'Definition {W}_call_ok (c : {W}_call) : bool :=\n  match c with\n'+'\n'.join(oks)+'\n  end.')
            if partial or stream:
                sp.append(f'(** The calls that do not panic. *)\nDefinition {W}_call_allowed (c : {W}_call) : Prop :=\n  match c with\n'+'\n'.join(allows)+'\n  end.')
            if array:
                mo.append(f'Definition {W}_calls : Type := list (or_item {W}_call).')
                mo.append(f'Definition {W}_obj (cs : {W}_calls) : obj := array_writer {W}_items cs.\n')
                sp.append(f'Definition {W}_reads (cs : {W}_calls) : val -> Prop := array_reads {W}_doc cs.')
                sp.append(f'Definition {W}_ok (cs : {W}_calls) : bool := forallb (item_ok {W}_call_ok) cs.\n')
                pr.append(f'Lemma {W}_good c : {W}_call_ok c = true -> Forall2 good ({W}_items c) ({W}_doc c).\nProof. destruct c; cbn [{W}_items {W}_doc {W}_call_ok]; {w.get("tac","tw_items_call")}. Qed.')
                pr.append(f'Lemma good_{W} cs : {W}_ok cs = true -> good ({W}_obj cs) ({W}_reads cs).\nProof. intro H. eapply good_array_writer; [exact {W}_good|exact H]. Qed.\n#[export] Hint Resolve good_{W} : tw.\n')
            else:
                hd='; '.join(f'(lit "{k}", {v})' for k,v in w['header'])
                mo.append(f"(** {w['hcite']}. *)" if w['header'] else f"(** {w['hcite']}: no entries. *)")
                mo.append(f'Definition {W}_header : list (bytes * obj) := [{hd}].')
                if stream:
                    mo.append(f'Definition {W}_calls : Type := list (or_stream Stream_call {W}_call).')
                    mo.append(f'Definition {W}_dict (cs : {W}_calls) : option (list (bytes * obj)) := stream_writer Stream_entries {W}_header {W}_entries cs.\n')
                    sp.append(f'Definition {W}_reads (cs : {W}_calls) : list entry_spec := {W}_head ++ flat_map (stream_doc Stream_doc {W}_doc) cs.')
                    sp.append(f'Definition {W}_ok (cs : {W}_calls) : bool := forallb (stream_ok Stream_call_ok {W}_call_ok) cs.')
                    sp.append(f'Definition {W}_allowed (cs : {W}_calls) : Prop := Forall (stream_allowed Stream_call_allowed {W}_call_allowed) cs.\n')
                    pr.append(f'Lemma {W}_good c es : {W}_call_ok c = true -> {W}_entries c = Some es -> good_entries es ({W}_doc c).\nProof. destruct c; cbn [{W}_entries {W}_doc {W}_call_ok]; tw_call_opt. Qed.')
                    pr.append(f'Lemma {W}_none c : {W}_entries c <> None <-> {W}_call_allowed c.\nProof. destruct c; cbn [{W}_entries {W}_call_allowed]; tw_none. Qed.')
                    pr.append(f'Lemma {W}_head_good : good_entries {W}_header {W}_head.\nProof. unfold {W}_header, {W}_head. tw_entries. Qed.')
                    pr.append(f'Lemma good_{W} cs es : {W}_ok cs = true -> {W}_dict cs = Some es -> good_entries es ({W}_reads cs).\nProof. intros H E. eapply good_stream; [exact {W}_head_good|exact Stream_good|exact {W}_good|exact H|exact E]. Qed.')
                    pr.append(f'Lemma {W}_dict_none cs : {W}_dict cs <> None <-> {W}_allowed cs.\nProof. apply stream_none; [exact Stream_none|exact {W}_none]. Qed.\n')
                elif plain:
                    mo.append(f'Definition {W}_calls : Type := list (or_raw {W}_call).')
                    mo.append(f'Definition {W}_dict (cs : {W}_calls) : option (list (bytes * obj)) := writer_list_opt {W}_header {W}_entries cs.\n')
                    sp.append(f'Definition {W}_reads (cs : {W}_calls) : list entry_spec := writer_doc {W}_head {W}_doc cs.')
                    sp.append(f'Definition {W}_ok (cs : {W}_calls) : bool := forallb (raw_ok {W}_call_ok) cs.')
                    sp.append(f'Definition {W}_allowed (cs : {W}_calls) : Prop := Forall (raw_allowed {W}_call_allowed) cs.\n')
                    pr.append(f'Lemma {W}_good c es : {W}_call_ok c = true -> {W}_entries c = Some es -> good_entries es ({W}_doc c).\nProof. destruct c; cbn [{W}_entries {W}_doc {W}_call_ok]; tw_call_opt. Qed.')
                    pr.append(f'Lemma {W}_none c : {W}_entries c <> None <-> {W}_call_allowed c.\nProof. destruct c; cbn [{W}_entries {W}_call_allowed]; tw_none. Qed.')
                    pr.append(f'Lemma good_{W} cs es : {W}_ok cs = true -> {W}_dict cs = Some es -> good_entries es ({W}_reads cs).\nProof. intros H E. eapply good_list_opt; [exact good_nil|exact {W}_good|exact H|exact E]. Qed.')
                    pr.append(f'Lemma {W}_dict_none cs : {W}_dict cs <> None <-> {W}_allowed cs.\nProof. apply list_opt_none. exact {W}_none. Qed.\n')
                else:
                    ct='' if not noraw else 'map Typed '
                    mo.append(f'Definition {W}_calls : Type := list '+(f'(or_raw {W}_call)' if not noraw else f'{W}_call')+'.')
                    cs='cs' if not noraw else '(map Typed cs)'
                    dw='dict_writer_opt' if partial else 'dict_writer'
                    ot='option obj' if partial else 'obj'
                    mo.append(f'Definition {W}_obj (cs : {W}_calls) : {ot} := {dw} {W}_header {W}_entries {cs}.\n')
                    sp.append(f'Definition {W}_reads (cs : {W}_calls) : val -> Prop := writer_reads {W}_head {W}_doc {cs}.')
                    sp.append(f'Definition {W}_ok (cs : {W}_calls) : bool := forallb (raw_ok {W}_call_ok) {cs}.'+('' if partial else '\n'))
                    pr.append(f'Lemma {W}_head_good : good_entries {W}_header {W}_head.\nProof. unfold {W}_header, {W}_head. tw_entries. Qed.')
                    if partial:
                        sp.append(f'Definition {W}_allowed (cs : {W}_calls) : Prop := Forall (raw_allowed {W}_call_allowed) {cs}.\n')
                        pr.append(f'Lemma {W}_good c es : {W}_call_ok c = true -> {W}_entries c = Some es -> good_entries es ({W}_doc c).\nProof. destruct c; cbn [{W}_entries {W}_doc {W}_call_ok]; tw_call_opt. Qed.')
                        pr.append(f'Lemma {W}_none c : {W}_entries c <> None <-> {W}_call_allowed c.\nProof. destruct c; cbn [{W}_entries {W}_call_allowed]; tw_none. Qed.')
                        pr.append(f'Lemma good_{W} cs o : {W}_ok cs = true -> {W}_obj cs = Some o -> good o ({W}_reads cs).\nProof. intros H E. eapply good_writer_opt; [exact {W}_head_good|exact {W}_good|exact H|exact E]. Qed.')
                        pr.append(f'Lemma {W}_obj_none cs : {W}_obj cs <> None <-> {W}_allowed cs.\nProof. apply writer_opt_none. exact {W}_none. Qed.\n#[export] Hint Resolve good_{W} : tw.\n#[export] Hint Resolve {W}_obj_none : twn.\n')
                    else:
                        pr.append(f'Lemma {W}_good c : {W}_call_ok c = true -> good_entries ({W}_entries c) ({W}_doc c).\nProof. destruct c; cbn [{W}_entries {W}_doc {W}_call_ok]; tw_call. Qed.')
                        pr.append(f'Lemma good_{W} cs : {W}_ok cs = true -> good ({W}_obj cs) ({W}_reads cs).\nProof. intro H. eapply good_writer; [exact {W}_head_good|exact {W}_good|exact H]. Qed.\n#[export] Hint Resolve good_{W} : tw.\n#[export] Hint Resolve {W}_head_good {W}_good : twh.')
            if not stream and not plain and not partial:
                pr.append(f'#[export] Hint Extern 1 (good (arr_of {W}_obj _) _) => apply (good_arr_of {W}_obj {W}_reads {W}_ok _ good_{W}) : tw.')
                pr.append(f'#[export] Hint Extern 1 (good (dict_of {W}_obj _) _) => apply (good_dict_of {W}_obj {W}_reads {W}_ok _ good_{W}) : tw.\n')
            # sample
            T_='STyped' if stream else 'TypedItem' if array else 'Typed'
            smp='; '.join((f'{T_} ' if not noraw else '')+('('+' '.join([cname[m.name]]+(m.h['sample'] if hasattr(m,'h') and 'sample' in m.h else [k.sample for _,k in m.args]))+')' if m.args else cname[m.name]) for m in ms)
            if stream: smp+='; SStream (Stream_filter FlateDecode); SRaw (lit "Extra") (OPrim (PInt 5))'
            elif array: smp+='; RawItem (OPrim (PInt 5))'
            elif not noraw: smp+='; Raw (lit "Extra") (OArray [OPrim (PBool true)])'
            smp=re.sub(r'^; ','',smp)
            sp.append(f'(** A sample: every method once. *)\nDefinition {W}_sample : {W}_calls := [\n  {smp}].\n')
        P=w.get('prop') or H.PROP[gname]
        if w.get('raw_coq'):
            pp.append(w['raw_coq']['prop'].replace('@P@',P)); thms+=re.findall(r'Theorem (\w+)',w['raw_coq']['prop'].replace('@P@',P))
            continue
        low=re.sub(r'(?<!^)(?=[A-Z])','_',W).lower()
        pp.append(f'(** ** {W} *)\n')
        if stream or plain:
            th=f'{P}_{low}'
            pp.append(f'Theorem {th} : forall calls es, {W}_ok calls = true -> {W}_dict calls = Some es -> stream_reads es ({W}_reads calls).\nProof. intros cs es H E. apply good_stream_reads. apply good_{W}; assumption. Qed.')
            th2=f'C44_{low}'
            pp.append(f'Theorem {th2} : forall calls, {W}_dict calls <> None <-> {W}_allowed calls.\nProof. exact {W}_dict_none. Qed.')
            pp.append(f'Example {low}_case : {W}_ok {W}_sample = true /\\ {W}_dict {W}_sample <> None.\nProof. vm_compute. split; [reflexivity|discriminate]. Qed.\n'); thms+=[th,th2]
        elif partial:
            th=f'{P}_{low}'
            pp.append(f'Theorem {th} : forall calls o, {W}_ok calls = true -> {W}_obj calls = Some o -> reads o ({W}_reads calls).\nProof. intros cs o H E. apply good_reads. apply good_{W}; assumption. Qed.')
            th2=f'C44_{low}'
            pp.append(f'Theorem {th2} : forall calls, {W}_obj calls <> None <-> {W}_allowed calls.\nProof. exact {W}_obj_none. Qed.')
            pp.append(f'Example {low}_case : {W}_ok {W}_sample = true /\\ {W}_obj {W}_sample <> None.\nProof. vm_compute. split; [reflexivity|discriminate]. Qed.\n'); thms+=[th,th2]
        else:
            th=f'{P}_{low}'
            pp.append(f'Theorem {th} : forall calls, {W}_ok calls = true -> reads ({W}_obj calls) ({W}_reads calls).\nProof. intros cs H. apply good_reads. apply good_{W}. exact H. Qed.')
            pp.append(f'Example {low}_case : {W}_ok {W}_sample = true.\nProof. vm_compute. reflexivity. Qed.\n'); thms.append(th)
    ex=H.EXTRA_PROP.get(gname,'')
    if ex: pp.append(ex); thms+=re.findall(r'^Theorem (\w+)',ex,re.M)
    pp.append('\n'.join(f'Print Assumptions {t}.' for t in thms)+'\n')
    for n,l in (('Model',mo),('Spec',sp),('Proof',pr),('Prop',pp)):
        open(f'{OUT}{n}Tw{gname}.v','w').write('\n'.join(l))
if __name__=='__main__':
    prev=[]
    for g,ws in H.GROUPS:
        gen(g,ws,prev); prev.append(g)
