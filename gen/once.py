import sys,re,glob,os; sys.path.insert(0,'/tmp/w')
os.chdir('/verif/rocq/theories')
from keys import W
alls=''.join(open(f).read() for f in sorted(glob.glob('ModelTw*.v')))
SKIP={'RoleMap','ClassMap','NamespaceRoleMap','Attributes','Stream'}
GROUP={}
def g(w,name,*ms):
    for m in ms: GROUP[(w,m)]=[name]
g('Action','destination','destination','destination_named'); g('Action','javascript','js_string','js_stream')
g('AdditionalActions','annot_page_visible','annot_page_close')
g('AdditionalActions','page_close / form_calculate','page_close','form_calculate')
g('AppearanceCharacteristics','border_color',*['border_color_'+x for x in('transparent','gray','rgb','cymk')])
g('AppearanceCharacteristics','background_color',*['background_color_'+x for x in('transparent','gray','rgb','cymk')])
g('Annotation','color',*['color_'+x for x in('transparent','gray','rgb','cmyk')])
g('StructElement','kind','kind','custom_kind'); GROUP[('StructElement','kind_2')]=['kind','namespace']
g('StructElement','children','child','marked_content_child','object_child','children')
g('Namespace','ns','ns','pdf_2_ns','pdf_1_7_ns','mathml_3_0_ns')
g('StructTreeRoot','children','child','children')
g('Page','contents','contents','contents_array')
g('OutlineItem','dest','dest','dest_name')
g('FileSpec','embedded_file','embedded_file','embedded_file_with_unicode')
for w in('Type1Font','Type3Font'): g(w,'encoding','encoding_predefined','encoding_custom')
g('Type0Font','encoding','encoding_predefined','encoding_cmap')
g('CidFont','cid_to_gid_map','cid_to_gid_map_predefined','cid_to_gid_map_stream')
g('Cmap','use_cmap','use_cmap_stream','use_cmap_predefined')
g('CertificateSeedValue','signature_policy_hash_algorithm','signature_policy_commitment_type')
g('SignatureSeedValue','lock_document','appearance_filter')
g('Field','options','button_options','choice_options')
g('Field','value','checkbox_value','radio_value','text_value','choice_value','choice_values')
g('Field','default_value',*[x for x in('checkbox_default_value','radio_default_value','text_default_value','choice_default_value','choice_default_values')])
g('Resources','proc_sets','proc_sets','proc_sets_all')
g('ExtGraphicsState','halftone','halftone','halftone_default'); g('ExtGraphicsState','soft_mask','soft_mask','soft_mask_name')
g('ShadingPattern','shading','function_shading','shading_ref')
g('SeparationInfo','device_colorant','device_colorant','device_colorant_str')
g('Reference','page','page_number','page_label')
g('ImageXObject','color_space','color_space','color_space_name'); g('ImageXObject','mask','color_mask','stencil_mask')
EXCL={('Field','into_annotation'),('PropertyList','artifact')}
spec=[]; prop=[]; names=[]
for n,(f,rt,cl) in W.items():
    if n in SKIP: continue
    opt='option' in rt
    stream=f'{n}_dict' in alls and re.search(r'Definition %s_dict [^\n]*stream_writer'%n,alls)
    raw=not re.search(r'Definition %s_obj [^\n]*map Typed cs'%n,alls)
    lines=[]; tab={}; hasex=False
    for c,a,k,r in cl:
        m=c[len(n)+1:]
        if (n,m) in EXCL: hasex=True; nm=[]
        else: nm=GROUP.get((n,m),[m])
        if (n,m)==('FieldAttributes','checked'):
            lines.append('  | FieldAttributes_checked'+' _'*(a-1)+' pdf2 => [if pdf2 then lit "checked (PDF 2.0)" else lit "checked"]')
        else:
         joined='; '.join('lit "%s"'%x for x in nm)
         lines.append('  | '+c+' _'*a+' => ['+joined+']')
        # top-level keys
        if (n,m) in EXCL: continue
        if m=='checked' and n=='FieldAttributes': tops=['Checked','checked']
        elif n=='StructElement' and m=='kind_2': tops=['S','NS']
        else: tops=k[:1]
        for i,t in enumerate(tops):
            v=nm[i] if len(nm)>1 else nm[0]
            if t=='Checked' and n=='FieldAttributes': v='checked (PDF 2.0)'
            assert tab.get(t,v)==v,(n,t,v,tab[t]); tab[t]=v
    spec.append(f"Definition {n}_sets (c : {n}_call) : list bytes :=\n  match c with\n"+'\n'.join(lines)+"\n  end.")
    if hasex:
        ex=[(c,a) for c,a,k,r in cl if (n,c[len(n)+1:]) in EXCL][0]
        spec.append(f"(** Without the method whose calls belong to another writer. *)\nDefinition {n}_own (c : {n}_call) : bool := match c with {ex[0]}{' _'*ex[1]} => false | _ => true end.")
    own=f'{n}_own' if hasex else ('(fun _ => true)' if stream or not raw else 'every')
    ff=f'{n}_entries' if opt else f'(fun c => Some ({n}_entries c))'
    t='['+'; '.join('(lit "%s", lit "%s")'%(a,b) for a,b in tab.items())+']'
    prop.append(f"Lemma good_{n} : good_writer {own} {n}_header {ff} {n}_sets {t}.\nProof. good {n}_entries. Qed.")
    if stream:
        th=f"Theorem C108_{n} : never_twice_in_stream {n}_sets {n}_dict.\nProof. exact (stream_once _ _ _ _ good_{n} eq_refl eq_refl eq_refl). Qed."
    elif raw:
        w=f'{n}_obj' if opt else f'(fun cs => Some ({n}_obj cs))'
        if not re.search(r'Definition %s_obj '%n,alls): print('no obj',n); w=w.replace('_obj','_obj')
        if hasex: th=f"Theorem C108_{n} : never_twice {n}_own {n}_sets {w}.\nProof. exact (opt_once _ _ _ _ _ good_{n} eq_refl). Qed."
        else: th=f"Theorem C108_{n} : never_twice every {n}_sets {w}.\nProof. exact (opt_once _ _ _ _ _ good_{n} eq_refl). Qed."
        if not opt: th=th.replace('opt_once','total_once')
    else:
        w=f'{n}_obj' if opt else f'(fun cs => Some ({n}_obj cs))'
        th=f"Theorem C108_{n} : never_twice_typed {n}_sets {w}.\nProof. exact ({'opt_typed_once _ _ _ _ _' if opt else 'total_typed_once _ _ _ _'} good_{n} eq_refl{' eq_refl' if opt else ''}). Qed."
    prop.append(th); names.append(n)
open('/tmp/w/once/spec.txt','w').write('\n\n'.join(spec)); open('/tmp/w/once/prop.txt','w').write('\n\n'.join(prop)); open('/tmp/w/once/names.txt','w').write(' '.join(names))
print(len(names))
