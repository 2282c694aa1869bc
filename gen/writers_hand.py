# Hand-written part of the typed writers: order, headers of the specification, methods whose body
# is not one of the common shapes.
import re
def N(x): return f'is_name (lit "{x}")'
def L(k,v): return f'(lit "{k}", {v})'
R='OPrim (PReal {})'
TITLE={'Files':'streams and files','Annot':'annotations, actions, renditions and destinations','Forms':'interactive forms and signatures',
 'Attr':'structure elements and attributes','Graphics':'resources, graphics state, patterns, shadings, output intents','XObj':'XObjects, functions and metadata',
 'Fonts':'fonts','Doc':'document structure'}
PROP={'Files':'C56','Annot':'C51','Forms':'C52','Attr':'C54','Graphics':'C55','XObj':'C56','Fonts':'C53','Doc':'C50'}
GROUPS=[('Files',['DecodeParms','Stream','FileSpec','EmbeddingParams','EmbeddedFile']),
 ('Annot',['Destination','Fields','MediaPermissions','MediaPlayParams','MediaClip','Rendition','Action','AdditionalActions','Appearance','IconFit','AppearanceCharacteristics','BorderStyle','Annotation']),
 ('Forms',['ChoiceOptions','SignatureFieldLock','SignatureModificationDetectionPrevention','SignatureTimeStamp','CertificateSeedValue','SignatureSeedValue','Field','Form']),
 ('Attr',['UserProperty','LayoutAttributes','ListAttributes','FieldAttributes','TableAttributes','ArtifactAttributes','FENoteAttributes','Attributes','MarkedRef','ObjectRef','StructChildren','StructElement','RoleMap','ClassMap','NamespaceRoleMap','Namespace','StructTreeRoot','MarkInfo']),
 ('Graphics',['Artifact','PropertyList','Resources','SoftMask','ExtGraphicsState','TilingPattern','FunctionShading','ShadingPattern','StreamShading','SeparationInfo','OutputIntent','Group']),
 ('XObj',['Reference','ImageXObject','FormXObject','SampledFunction','ExponentialFunction','StitchingFunction','PostScriptFunction','Metadata']),
 ('Fonts',['Encoding','Type1Font','Type3Font','Type0Font','CidFont','Cmap']),
 ('Doc',['DeveloperExtension','ViewerPreferences','PageLabel','DocumentInfo','Transition','Names','Pages','Page','Outline','OutlineItem','Catalog'])]
FILE={'DecodeParms':'object','Stream':'object','FileSpec':'files','EmbeddingParams':'files','EmbeddedFile':'files','Destination':'structure','Fields':'actions',
 'MediaPermissions':'renditions','MediaPlayParams':'renditions','MediaClip':'renditions','Rendition':'renditions','Action':'actions','AdditionalActions':'actions',
 'Cmap':'font','Transition':'transitions','Names':'structure'}
def fileof(W):
    if W in FILE: return FILE[W]
    for f in ['annotations','forms','attributes','structure','content','color','xobject','functions','font']:
        if re.search(r'pub struct '+W+r"\b",open(f'/repo/src/{f}.rs').read()): return f
    raise Exception(W)
T=lambda x:[('Type',N(x))]
OWN=lambda x,b:[('O',f'is_AttributeOwner AttributeOwner_{x} {b}')]
HEAD={'FileSpec':T('Filespec'),'EmbeddedFile':T('EmbeddedFile'),'MediaPermissions':T('MediaPermissions'),'MediaPlayParams':T('MediaPlayParams'),'MediaClip':T('MediaClip'),
 'Rendition':T('Rendition'),'Action':T('Action'),'BorderStyle':T('Border'),'Annotation':T('Annot'),'SignatureFieldLock':T('SigFieldLock'),'CertificateSeedValue':T('SVCert'),
 'SignatureSeedValue':T('SV'),'LayoutAttributes':OWN('Layout','false'),'ListAttributes':OWN('List','false'),'FieldAttributes':OWN('PrintField','false'),
 'TableAttributes':OWN('Table','false'),'ArtifactAttributes':OWN('Artifact','true'),'FENoteAttributes':OWN('FENote','true'),'MarkedRef':T('MCR'),'ObjectRef':T('OBJR'),
 'StructElement':T('StructElem'),'Namespace':T('Namespace'),'StructTreeRoot':T('StructTreeRoot'),'SoftMask':T('Mask'),'ExtGraphicsState':T('ExtGState'),
 'TilingPattern':T('Pattern')+[('PatternType','is_int 1')],'ShadingPattern':T('Pattern')+[('PatternType','is_int 2')],'OutputIntent':T('OutputIntent'),'Group':T('Group'),
 'ImageXObject':T('XObject')+[('Subtype',N('Image'))],'FormXObject':T('XObject')+[('Subtype',N('Form'))],'SampledFunction':[('FunctionType','is_int 0')],
 'ExponentialFunction':[('FunctionType','is_int 2')],'StitchingFunction':[('FunctionType','is_int 3')],'PostScriptFunction':[('FunctionType','is_int 4')],
 'Metadata':T('Metadata')+[('Subtype',N('XML'))],'Encoding':T('Encoding'),'Type1Font':T('Font')+[('Subtype',N('Type1'))],'Type3Font':T('Font')+[('Subtype',N('Type3'))],
 'Type0Font':T('Font')+[('Subtype',N('Type0'))],'CidFont':T('Font'),'Cmap':T('CMap'),'DeveloperExtension':T('DeveloperExtensions'),'PageLabel':T('PageLabel'),
 'Transition':T('Trans'),'Pages':T('Pages'),'Page':T('Page'),'Outline':T('Outlines'),'Catalog':T('Catalog')}
ARRAY={'Destination','Fields','ChoiceOptions','StructChildren'}
NORAW={'SeparationInfo','OutputIntent','RoleMap'}
STREAM={'EmbeddedFile','TilingPattern','StreamShading','ImageXObject','FormXObject','SampledFunction','PostScriptFunction','Metadata','Cmap'}
PARTIAL={'DecodeParms','Stream','FunctionShading','ShadingPattern','SeparationInfo','Group','ViewerPreferences','Outline','Page','Catalog'}
def hdr(W):
    """The entries written by the constructor, from the source text."""
    f=fileof(W); src=open(f'/repo/src/{f}.rs').read(); lines=src.split('\n')
    i=next((k for k,l in enumerate(lines) if re.match(r'writer!\('+W+r':',l)),None)
    if i is not None:
        if lines[i].endswith('|obj| {'):
            j=i
            while lines[j]!='});': j+=1
        else: j=i
        if 'start_with_dict' in lines[i]: i=None
    if i is None:
        b=next(k for k,l in enumerate(lines) if re.match(r"impl<'a> "+W+r"<'a> \{",l))
        i=next(k for k in range(b,b+30) if re.search(r'pub\(crate\) fn start',lines[k]))
        j=i
        while lines[j]!='    }': j+=1
    body='\n'.join(lines[i:j+1]); out=[]
    for k,v in re.findall(r'\.pair\(Name\(b"(\w+)"\), (.*)\);',body):
        g=re.match(r'Name\(b"(\w+)"\)$',v)
        if g: o=f'OPrim (PName (lit "{g.group(1)}"))'
        else:
            g=re.match(r'AttributeOwner::(\w+)\.to_name\((\w+)\)',v)
            if g: o=f'OPrim (PName (AttributeOwner_name AttributeOwner_{g.group(1)} {g.group(2)}))'
            else:
                g=re.match(r'FunctionType::(\w+)\.to_int\(\)',v)
                if g: o=f'OPrim (PInt (function_type_int Ft{g.group(1)}))'
                else:
                    g=re.match(r'PatternType::(\w+)\.to_int\(\)',v); o='OPrim (PInt %s)'%{'Tiling':1,'Shading':2}[g.group(1)]   # src/color.rs PatternType::to_int
        out.append((k,o))
    assert body.count('.pair(')==len(out),W
    return out,f'src/{f}.rs:{i+1}-{j+1}' if j>i else f'src/{f}.rs:{i+1}'
WRITERS={}
GROUPS.sort(key=lambda g:['Files','Graphics','Annot','Forms','Attr','XObj','Fonts','Doc'].index(g[0]))
for g,ws in GROUPS:
    for W in ws:
        w=dict(file=fileof(W),head=HEAD.get(W,[]))
        if W in ARRAY: w['array']=True; w['cite']=f'src/{w["file"]}.rs'
        elif W=='Stream': w['cite']='src/object.rs:1107-1146'; w['header'],w['hcite'],w['plain']=[],'src/object.rs:1118-1130: the length is in [chunk_stream]',True
        else: w['header'],w['hcite']=hdr(W); w['cite']=f'src/{w["file"]}.rs'
        if W in NORAW: w['noraw']=True
        if W in STREAM: w['stream']=True
        if W in PARTIAL: w['partial']=True
        WRITERS[W]=w
WRITERS['AdditionalActions']['prop']='C48'
SKIP={'Stream::start','PostScriptFunction::encode'}
# keys: the documentation comment does not start with the key; a tuple is a deviation with a note.
KEYS={
 'FileSpec::association_kind':'AFRelationship',
 'Names::templates':'Templates',
 'SignatureSeedValue::sub_filter':'SubFilter',
 'AdditionalActions::annot_page_close':('PV','the documentation and ISO 32000 say PC: see C48_page_close_refuted'),
 'SignatureSeedValue::appearance_filter':('LockDocument','the documentation and ISO 32000 say AppearanceFilter: see C52_appearance_filter_refuted'),
 'CertificateSeedValue::signature_policy_commitment_type':('SignaturePolicyHashAlgorithm','see C52_commitment_type_refuted'),
 'Transition::opaque':('F','the documentation says B; ISO 32000 wants a boolean: see C50_opaque_refuted'),
 'SoftMask::group':'G',
}
def h(args,model,spec,**k): return dict(args=args,model=model,spec=spec,**k)
def color3(key): pass
HAND={}
for W,p in (('Annotation','C'),):
    HAND[f'{W}::color_transparent']=h([],f'[(lit "{p}", reals [])]',f'[(lit "{p}", is_reals [])]')
    HAND[f'{W}::color_gray']=h([('gray','f32')],f'[(lit "{p}", reals [gray])]',f'[(lit "{p}", is_reals [gray])]')
for pre,p in (('border_color','BC'),('background_color','BG')):
    W='AppearanceCharacteristics'
    HAND[f'{W}::{pre}_transparent']=h([],f'[(lit "{p}", reals [])]',f'[(lit "{p}", is_reals [])]')
    HAND[f'{W}::{pre}_gray']=h([('gray','f32')],f'[(lit "{p}", reals [gray])]',f'[(lit "{p}", is_reals [gray])]')
HAND.update({
 'DecodeParms::colors':h([('colors','i32')],'if colors <=? 0 then None else Some [(lit "Colors", OPrim (PInt colors))]','[(lit "Colors", is_int colors)]',opt=True,allowed='0 < colors'),
 'DecodeParms::bits_per_component':h([('bits','i32')],'if negb (existsb (Z.eqb bits) [1; 2; 4; 8; 16]) then None else Some [(lit "BitsPerComponent", OPrim (PInt bits))]','[(lit "BitsPerComponent", is_int bits)]',opt=True,allowed='In bits [1; 2; 4; 8; 16]'),
 'DecodeParms::early_change':h([('early_change','bool')],'[(lit "EarlyChange", OPrim (PInt (if early_change then 1 else 0)))]','[(lit "EarlyChange", is_int (if early_change then 1 else 0))]'),
 'DecodeParms::color_transform':h([('color_transform','bool')],'[(lit "ColorTransform", OPrim (PInt (if color_transform then 1 else 0)))]','[(lit "ColorTransform", is_int (if color_transform then 1 else 0))]'),
 'DecodeParms::crypt_type':h([],'[(lit "Type", OPrim (PName (lit "CryptFilterDecodeParms")))]','[(lit "Type", is_name (lit "CryptFilterDecodeParms"))]'),
 'FileSpec::embedded_file':h([('id','Ref')],'[(lit "EF", ODict [(lit "F", OPrim (PRef id))])]','[(lit "EF", is_dict [(lit "F", is_ref id)])]'),
 'FileSpec::embedded_file_with_unicode':h([('id','Ref')],'[(lit "EF", ODict [(lit "F", OPrim (PRef id)); (lit "UF", OPrim (PRef id))])]','[(lit "EF", is_dict [(lit "F", is_ref id); (lit "UF", is_ref id)])]'),
 'Fields::id':h([('id','Ref')],'[OPrim (PRef id)]','[is_ref id]'),
 'Fields::ids':h([('ids','iter Ref')],'map (fun r => OPrim (PRef r)) ids','map is_ref ids'),
 'Fields::name':h([('name','TextStr')],'[OPrim (PText name)]','[is_text name]'),
 'Fields::names':h([('names_','iter TextStr')],'map (fun t => OPrim (PText t)) names_','map is_text names_'),
 'MediaPlayParams::controls':h([('c','bool')],'[(lit "BE", ODict [(lit "C", OPrim (PBool c))])]','[(lit "BE", is_dict [(lit "C", is_bool c)])]'),
 'Annotation::border':h([('h_radius','f32'),('v_radius','f32'),('width','f32'),('dash_pattern','OptDash')],'[(lit "Border", OArray (border_items h_radius v_radius width dash_pattern))]','[(lit "Border", is_border h_radius v_radius width dash_pattern)]'),
 # Destination (consuming methods: as calls in order)
 'Destination::page':h([('page','Ref')],'[OPrim (PRef page)]','[is_ref page]'),
 'Destination::xyz':h([('left_','f32'),('top','f32'),('zoom','OptF32')],'[OPrim (PName (lit "XYZ")); OPrim (PReal left_); OPrim (PReal top); OPrim (PReal (match zoom with Some z => z | None => f32_zero end))]','[is_name (lit "XYZ"); is_real left_; is_real top; is_real (match zoom with Some z => z | None => f32_zero end)]'),
 'Destination::fit':h([],'[OPrim (PName (lit "Fit"))]','[is_name (lit "Fit")]'),
 'Destination::fit_horizontal':h([('top','f32')],'[OPrim (PName (lit "FitH")); OPrim (PReal top)]','[is_name (lit "FitH"); is_real top]'),
 'Destination::fit_vertical':h([('left_','f32')],'[OPrim (PName (lit "FitV")); OPrim (PReal left_)]','[is_name (lit "FitV"); is_real left_]'),
 'Destination::fit_rect':h([('rect','Rect')],'[OPrim (PName (lit "FitR")); OPrim (PReal (x1 rect)); OPrim (PReal (y1 rect)); OPrim (PReal (x2 rect)); OPrim (PReal (y2 rect))]','[is_name (lit "FitR"); is_real (x1 rect); is_real (y1 rect); is_real (x2 rect); is_real (y2 rect)]'),
 'Destination::fit_bounding_box':h([],'[OPrim (PName (lit "FitB"))]','[is_name (lit "FitB")]'),
 'Destination::fit_bounding_box_horizontal':h([('top','f32')],'[OPrim (PName (lit "FitBH")); OPrim (PReal top)]','[is_name (lit "FitBH"); is_real top]'),
 'Destination::fit_bounding_box_vertical':h([('left_','f32')],'[OPrim (PName (lit "FitBV")); OPrim (PReal left_)]','[is_name (lit "FitBV"); is_real left_]'),
 # forms
 'ChoiceOptions::option':h([('value','impl TextStrLike')],'[OPrim (text_prim value)]','[is_textlike value]'),
 'ChoiceOptions::options':h([('values','iter textlike')],'map (fun t => OPrim (text_prim t)) values','map is_textlike values'),
 'ChoiceOptions::export':h([('value','impl TextStrLike'),('export_value','TextStr')],'[OArray [OPrim (PText export_value); OPrim (text_prim value)]]','[is_array [is_text export_value; is_textlike value]]'),
 'ChoiceOptions::exports':h([('values','iter pair')],'map (fun e => OArray [OPrim (PText (snd e)); OPrim (text_prim (fst e))]) values','map (fun e => is_array [is_text (snd e); is_textlike (fst e)]) values'),
 'SignatureTimeStamp::required':h([('required','bool')],'[(lit "Ff", OPrim (PInt (if required then 1 else 0)))]','[(lit "Ff", is_int (if required then 1 else 0))]'),
 'SignatureSeedValue::digest_method':h([('digest_method','iter SignatureDigestMethod')],'[(lit "DigestMethod", arr_of (fun e => OPrim (PName (SignatureDigestMethod_name e))) digest_method)]','[(lit "DigestMethod", is_array_of is_SignatureDigestMethod digest_method)]'),
 'SignatureSeedValue::legal_attestation':h([('legal_attestations','iter TextStr')],'[(lit "LegalAttestation", arr_of (fun t => OPrim (PText t)) legal_attestations)]','[(lit "LegalAttestation", is_array_of is_text legal_attestations)]'),
 'CertificateSeedValue::signature_policy_commitment_type':h([('commitment_types','iter Str')],'[(lit "SignaturePolicyHashAlgorithm", arr_of (fun s => OPrim (PStr s)) commitment_types)]','[(lit "SignaturePolicyHashAlgorithm", is_array_of is_str commitment_types)]',note='the documentation says SignaturePolicyCommitmentType: see C52_commitment_type_refuted'),
 'CertificateSeedValue::key_usage':h([('key_usages','KeyUsages')],'[(lit "KeyUsage", arr_of (fun u => OPrim (PStr (into_ascii u))) key_usages)]','[(lit "KeyUsage", is_array_of is_key_usage key_usages)]'),
 'Field::into_annotation':h([('calls','Annotation')],'(lit "Type", OPrim (PName (lit "Annot"))) :: (lit "Subtype", OPrim (PName (AnnotationType_name AnnotationType_Widget))) :: writer_list [] Annotation_entries calls',
   '(lit "Type", is_name (lit "Annot")) :: (lit "Subtype", is_AnnotationType AnnotationType_Widget) :: writer_doc [] Annotation_doc calls',note='the calls on the annotation that follow'),
 'Field::choice_value':h([('option','OptText')],'[(lit "V", text_or_null option)]','[(lit "V", is_text_or_null option)]'),
 'Field::choice_default_value':h([('option','OptText')],'[(lit "DV", text_or_null option)]','[(lit "DV", is_text_or_null option)]'),
 # attributes
 'Attributes::owner':h([('owner','AttributeOwner'),('iso32000_2_2020','bool')],'[(lit "O", OPrim (PName (AttributeOwner_name owner iso32000_2_2020)))]','[(lit "O", is_AttributeOwner owner iso32000_2_2020)]'),
 'Attributes::user':h([('properties','TypedArray UserProperty')],'[(lit "O", OPrim (PName (AttributeOwner_name AttributeOwner_User false))); (lit "P", arr_of UserProperty_obj properties)]','[(lit "O", is_AttributeOwner AttributeOwner_User false); (lit "P", is_array_of UserProperty_reads properties)]'),
 'Attributes::namespace':h([('ns','Ref'),('entries','Dict')],'(lit "O", OPrim (PName (AttributeOwner_name AttributeOwner_NSO true))) :: (lit "NS", OPrim (PRef ns)) :: entries','(lit "O", is_AttributeOwner AttributeOwner_NSO true) :: (lit "NS", is_ref ns) :: map (fun e => (fst e, means (snd e))) entries'),
 'LayoutAttributes::background_color':h([('color','[f32; 3]')],'[(lit "BackgroundColor", reals (l3 color))]','[(lit "BackgroundColor", is_reals (in_order3 color))]'),
 'LayoutAttributes::text_decoration_color':h([('color','[f32; 3]')],'[(lit "TextDecorationColor", reals (l3 color))]','[(lit "TextDecorationColor", is_reals (in_order3 color))]'),
 'LayoutAttributes::line_height':h([('height','LineHeight')],'[(lit "LineHeight", LineHeight_obj height)]','[(lit "LineHeight", is_LineHeight height)]'),
 'LayoutAttributes::glyph_orientation_vertical':h([('orientation','GlyphOrientationVertical')],'[(lit "GlyphOrientationVertical", GlyphOrientationVertical_obj orientation)]','[(lit "GlyphOrientationVertical", is_GlyphOrientationVertical orientation)]'),
 'LayoutAttributes::column_widths':h([('x','TrackSizes')],'[(lit "ColumnWidths", TrackSizes_obj x)]','[(lit "ColumnWidths", TrackSizes_reads x)]'),
 'LayoutAttributes::column_gap':h([('x','TrackSizes')],'[(lit "ColumnGap", TrackSizes_obj x)]','[(lit "ColumnGap", TrackSizes_reads x)]'),
 'FieldAttributes::checked':h([('checked','FieldState'),('pdf2','bool')],'[(if pdf2 then lit "Checked" else lit "checked", OPrim (PName (FieldState_name checked)))]','[(if pdf2 then lit "Checked" else lit "checked", is_FieldState checked)]'),
 'UserProperty::value':h([('o','Obj')],'[(lit "V", o)]','[(lit "V", means o)]'),
 # structure
 'StructChildren::struct_element':h([('id','Ref')],'[OPrim (PRef id)]','[is_ref id]'),
 'StructChildren::marked_content_id':h([('id','i32')],'[OPrim (PInt id)]','[is_int id]'),
 'StructChildren::marked_content_ref':h([('calls','MarkedRef')],'[MarkedRef_obj calls]','[MarkedRef_reads calls]'),
 'StructChildren::object_ref':h([('calls','ObjectRef')],'[ObjectRef_obj calls]','[ObjectRef_reads calls]'),
 'StructElement::kind_2':h([('role','StructRole2'),('pdf_2_ns','Ref')],'[(lit "S", OPrim (PName (role2_name role))); (lit "NS", OPrim (PRef pdf_2_ns))]','[(lit "S", is_StructRole2 role); (lit "NS", is_ref pdf_2_ns)]'),
 'RoleMap::insert':h([('name','Name'),('role','StructRole')],'[(name, OPrim (PName (StructRole_name role)))]','[(name, is_StructRole role)]'),
 'ClassMap::single':h([('name','Name'),('calls','Attributes')],'[(name, Attributes_obj calls)]','[(name, Attributes_reads calls)]'),
 'ClassMap::multiple':h([('name','Name'),('items','TypedArray Attributes')],'[(name, arr_of Attributes_obj items)]','[(name, is_array_of Attributes_reads items)]'),
 'NamespaceRoleMap::to_pdf_1_7':h([('name','Name'),('role','StructRole')],'[(name, OPrim (PName (StructRole_name role)))]','[(name, is_StructRole role)]'),
 'NamespaceRoleMap::to_namespace':h([('name','Name'),('role','Name'),('ns_ref','Ref')],'[(name, OArray [OPrim (PName role); OPrim (PRef ns_ref)])]','[(name, is_array [is_name role; is_ref ns_ref])]'),
 'NamespaceRoleMap::to_pdf_2_0':h([('name','Name'),('role','StructRole2'),('pdf_2_ns','Ref')],'[(name, OArray [OPrim (PName (role2_name role)); OPrim (PRef pdf_2_ns)])]','[(name, is_array [is_StructRole2 role; is_ref pdf_2_ns])]'),
 'Namespace::pdf_2_ns':h([],'[(lit "NS", OPrim (PText (ascii "https://www.iso.org/pdf2/ssn")))]','[(lit "NS", is_text (ascii "https://www.iso.org/pdf2/ssn"))]'),
 'Namespace::pdf_1_7_ns':h([],'[(lit "NS", OPrim (PText (ascii "https://www.iso.org/pdf/ssn")))]','[(lit "NS", is_text (ascii "https://www.iso.org/pdf/ssn"))]'),
 'Namespace::mathml_3_0_ns':h([],'[(lit "NS", OPrim (PText (ascii "https://www.w3.org/1998/Math/MathML")))]','[(lit "NS", is_text (ascii "https://www.w3.org/1998/Math/MathML"))]'),
 # graphics
 'Artifact::attached':h([('attachment','iter ArtifactAttachment')],'[(lit "Attached", arr_of (fun e => OPrim (PName (ArtifactAttachment_name e))) attachment)]','[(lit "Attached", is_array_of is_ArtifactAttachment attachment)]'),
 'PropertyList::artifact':h([('calls','Artifact')],'writer_list [] Artifact_entries calls','writer_doc [] Artifact_doc calls',note='the calls on the artifact that follow'),
 'Resources::proc_sets':h([('sets','iter ProcSet')],'[(lit "ProcSet", arr_of (fun e => OPrim (PName (ProcSet_name e))) sets)]','[(lit "ProcSet", is_array_of is_ProcSet sets)]'),
 'Resources::proc_sets_all':h([],'[(lit "ProcSet", arr_of (fun e => OPrim (PName (ProcSet_name e))) [ProcSet_Pdf; ProcSet_Text; ProcSet_ImageGrayscale; ProcSet_ImageColor; ProcSet_ImageIndexed])]','[(lit "ProcSet", is_array [is_name (lit "PDF"); is_name (lit "Text"); is_name (lit "ImageB"); is_name (lit "ImageC"); is_name (lit "ImageI")])]'),
 'ExtGraphicsState::dash_pattern':h([('pattern','iter f32'),('phase','f32')],'[(lit "D", OArray [reals pattern; OPrim (PReal phase)])]','[(lit "D", is_array [is_reals pattern; is_real phase])]'),
 'ExtGraphicsState::font':h([('font','Name'),('size','f32')],'[(lit "Font", OArray [OPrim (PName font); OPrim (PReal size)])]','[(lit "Font", is_array [is_name font; is_real size])]',note='ISO 32000 wants a reference: see C55_font_refuted'),
 'TilingPattern::x_step':h([('x_step','f32')],'if f32_eqb x_step f32_zero then None else Some [(lit "XStep", OPrim (PReal x_step))]','[(lit "XStep", is_real x_step)]',opt=True,allowed='~ is_zero x_step'),
 'TilingPattern::y_step':h([('y_step','f32')],'if f32_eqb y_step f32_zero then None else Some [(lit "YStep", OPrim (PReal y_step))]','[(lit "YStep", is_real y_step)]',opt=True,allowed='~ is_zero y_step'),
 'Group::transparency':h([],'[(lit "S", OPrim (PName (lit "Transparency")))]','[(lit "S", is_name (lit "Transparency"))]'),
 # fonts
 'Type0Font::descendant_font':h([('cid_font','Ref')],'[(lit "DescendantFonts", refs [cid_font])]','[(lit "DescendantFonts", is_array [is_ref cid_font])]'),
 'CidFont::system_info':h([('info','SystemInfo')],'[(lit "CIDSystemInfo", system_info_obj info)]','[(lit "CIDSystemInfo", is_system_info info)]'),
 'Cmap::system_info':h([('info','SystemInfo')],'[(lit "CIDSystemInfo", system_info_obj info)]','[(lit "CIDSystemInfo", is_system_info info)]'),
 # document
 'ViewerPreferences::non_full_screen_page_mode':h([('mode','PageMode')],'match mode with PageMode_FullScreen => None | _ => Some [(lit "NonFullScreenPageMode", OPrim (PName (PageMode_name mode)))] end','[(lit "NonFullScreenPageMode", is_PageMode mode)]',opt=True,allowed='mode <> PageMode_FullScreen'),
 'Outline::count':h([('count','i32')],'if 0 <=? count then Some [(lit "Count", OPrim (PInt count))] else None','[(lit "Count", is_int count)]',opt=True,allowed='0 <= count'),
 'Transition::dimension':h([('vertical','bool')],'[(lit "Dm", OPrim (PName (if vertical then lit "V" else lit "H")))]','[(lit "Dm", is_name (if vertical then lit "V" else lit "H"))]'),
 'Transition::direction':h([('outward','bool')],'[(lit "M", OPrim (PName (if outward then lit "O" else lit "I")))]','[(lit "M", is_name (if outward then lit "O" else lit "I"))]'),
 'Transition::angle':h([('angle','TransitionAngle')],'[(lit "Di", TransitionAngle_obj angle)]','[(lit "Di", is_TransitionAngle angle)]'),
})
for W,k in (('layout','LayoutAttributes'),('list','ListAttributes'),('field','FieldAttributes'),('table','TableAttributes'),('artifact','ArtifactAttributes'),('note','FENoteAttributes')):
    HAND[f'Attributes::{W}']=h([('calls',k)],f'writer_list {k}_header {k}_entries calls',f'writer_doc {k}_head {k}_doc calls',note='the calls on the converted writer that follow')
for n,key in (('border_color','BorderColor'),):
    HAND[f'LayoutAttributes::{n}']=h([('color','Sides f3')],f'[(lit "{key}", sides_colors color)]',f'[(lit "{key}", is_sides_colors color)]')
for n,key in (('border_style','BorderStyle'),('table_border_style','TBorderStyle')):
    HAND[f'LayoutAttributes::{n}']=h([('style','Sides style')],f'[(lit "{key}", sides_styles style)]',f'[(lit "{key}", is_sides_styles style)]')
for n,key,a in (('border_thickness','BorderThickness','thickness'),('padding','Padding','padding'),('table_padding','TPadding','padding')):
    HAND[f'LayoutAttributes::{n}']=h([(a,'Sides f32')],f'[(lit "{key}", sides_reals {a})]',f'[(lit "{key}", is_sides_reals {a})]')
DOMAIN=('domain','src/functions.rs:27-45',h([('domain','iter f32')],'[(lit "Domain", reals domain)]','[(lit "Domain", is_reals domain)]'))
RANGE=('range','src/functions.rs:27-45',h([('range','iter f32')],'[(lit "Range", reals range)]','[(lit "Range", is_reals range)]'))
for W in ('SampledFunction','PostScriptFunction','ExponentialFunction','StitchingFunction'): WRITERS[W]['extra']=[DOMAIN,RANGE]
WRITERS['RoleMap']['extra']=[('pair','src/structure.rs:739 and src/object.rs:1051-1057 (TypedDict<Name>::pair)',h([('name','Name'),('value','Name')],'[(name, OPrim (PName value))]','[(name, is_name value)]'))]
EXTRA_PROP={}
for n,key in (('black_generation','BG2'),('undercolor_removal','UCR2'),('transfer','TR2'),('halftone','HT')):
    HAND[f'ExtGraphicsState::{n}_default']=h([],f'[(lit "{key}", OPrim (PName (lit "Default")))]',f'[(lit "{key}", is_name (lit "Default"))]')
for W,n,key in (('DeveloperExtension','base_version','BaseVersion'),('Catalog','version','Version')):
    HAND[f'{W}::{n}']=h([('major','u8'),('minor','u8')],f'[(lit "{key}", OPrim (PName (version_name major minor)))]',f'[(lit "{key}", is_version major minor)]')

for k,v in {'DecodeParms::colors':['3'],'DecodeParms::bits_per_component':['8'],'Outline::count':['2'],'ViewerPreferences::non_full_screen_page_mode':['PageMode_UseThumbs']}.items(): HAND[k]['sample']=v
EXTRA_PROP['Annot']=r'''(** ** Deviations *)

(** C48 is false of one trigger: the documentation (and ISO 32000, table 197) give the key of the event "the page
    containing the annotation is closed" as [PC]; the entry is written as [PV]. *)
Theorem C48_page_close_refuted : forall action,
  Action_ok action = true ->
  reads (AdditionalActions_obj [Typed (AdditionalActions_annot_page_close action)])
        (fun v => ~ is_dict [(lit "PC", Action_reads action)] v).
Proof.
  intros a H. eapply reads_weaken.
  - apply C48_additional_actions. unfold AdditionalActions_ok. cbn [forallb raw_ok AdditionalActions_call_ok]. rewrite H. reflexivity.
  - intros v M. apply (dict_conflict (lit "PV") (lit "PC") (Action_reads a) _ [] _ v); [discriminate|exact M].
Qed.

(** The same key is written for another event, so that both cannot be used together. *)
Theorem C48_page_close_collides : forall a,
  AdditionalActions_entries (AdditionalActions_annot_page_close a) =
  AdditionalActions_entries (AdditionalActions_annot_page_visible a).
Proof. reflexivity. Qed.

(** The object whose additional actions a trigger belongs to. A field and its widget annotation may be one
    dictionary, so that the triggers of form fields and of annotations share a dictionary. *)
Inductive aa_owner := AaAnnotation | AaPage | AaCatalog.
Definition aa_owner_of (c : AdditionalActions_call) : aa_owner :=
  match c with
  | AdditionalActions_annot_curser_enter _ => AaAnnotation
  | AdditionalActions_annot_cursor_exit _ => AaAnnotation
  | AdditionalActions_annot_mouse_press _ => AaAnnotation
  | AdditionalActions_annot_mouse_release _ => AaAnnotation
  | AdditionalActions_annot_page_open _ => AaAnnotation
  | AdditionalActions_annot_page_close _ => AaAnnotation
  | AdditionalActions_annot_page_visible _ => AaAnnotation
  | AdditionalActions_annot_page_invisible _ => AaAnnotation
  | AdditionalActions_widget_focus _ => AaAnnotation
  | AdditionalActions_widget_focus_loss _ => AaAnnotation
  | AdditionalActions_page_open _ => AaPage
  | AdditionalActions_page_close _ => AaPage
  | AdditionalActions_form_calculate_partial _ => AaAnnotation
  | AdditionalActions_form_format _ => AaAnnotation
  | AdditionalActions_form_validate _ => AaAnnotation
  | AdditionalActions_form_calculate _ => AaAnnotation
  | AdditionalActions_cat_before_close _ => AaCatalog
  | AdditionalActions_cat_before_save _ => AaCatalog
  | AdditionalActions_cat_after_save _ => AaCatalog
  | AdditionalActions_cat_before_print _ => AaCatalog
  | AdditionalActions_cat_after_print _ => AaCatalog
  end.
(** The event, numbered in the order of the methods, without the action. *)
Definition aa_event (c : AdditionalActions_call) : nat :=
  match c with
  | AdditionalActions_annot_curser_enter _ => 0
  | AdditionalActions_annot_cursor_exit _ => 1
  | AdditionalActions_annot_mouse_press _ => 2
  | AdditionalActions_annot_mouse_release _ => 3
  | AdditionalActions_annot_page_open _ => 4
  | AdditionalActions_annot_page_close _ => 5
  | AdditionalActions_annot_page_visible _ => 6
  | AdditionalActions_annot_page_invisible _ => 7
  | AdditionalActions_widget_focus _ => 8
  | AdditionalActions_widget_focus_loss _ => 9
  | AdditionalActions_page_open _ => 10
  | AdditionalActions_page_close _ => 11
  | AdditionalActions_form_calculate_partial _ => 12
  | AdditionalActions_form_format _ => 13
  | AdditionalActions_form_validate _ => 14
  | AdditionalActions_form_calculate _ => 15
  | AdditionalActions_cat_before_close _ => 16
  | AdditionalActions_cat_before_save _ => 17
  | AdditionalActions_cat_after_save _ => 18
  | AdditionalActions_cat_before_print _ => 19
  | AdditionalActions_cat_after_print _ => 20
  end%nat.

(** Two setters that may be used on the same object write the same key only if they stand for the same event, or if
    they are [annot_page_close] (5) and [annot_page_visible] (6). Every setter writes exactly one key. *)
Theorem C48_distinct_keys : forall a b ka kb,
  aa_owner_of a = aa_owner_of b ->
  map fst (AdditionalActions_entries a) = [ka] -> map fst (AdditionalActions_entries b) = [kb] ->
  (ka = kb <-> aa_event a = aa_event b \/ (aa_event a = 5 /\ aa_event b = 6)%nat \/ (aa_event a = 6 /\ aa_event b = 5)%nat).
Proof.
  intros a b ka kb O A B.
  destruct a, b; try discriminate O; clear O; cbn in A, B;
    apply (f_equal (fun l => hd [] l)) in A; apply (f_equal (fun l => hd [] l)) in B; cbn in A, B; subst ka kb;
    cbn [aa_event]; split; intro H; try discriminate H; try reflexivity; auto;
    try (destruct H as [H|[[H1 H2]|[H1 H2]]]; congruence).
Qed.

Theorem C48_one_key : forall a, exists k v, AdditionalActions_entries a = [(k, v)].
Proof. destruct a; do 2 eexists; reflexivity. Qed.

Example C48_distinct_case : forall x y, exists ka kb,
  map fst (AdditionalActions_entries (AdditionalActions_annot_page_open x)) = [ka] /\
  map fst (AdditionalActions_entries (AdditionalActions_form_calculate y)) = [kb] /\ ka <> kb.
Proof. intros. do 2 eexists. split; [reflexivity|]. split; [reflexivity|]. discriminate. Qed.

(** The components of [border_color_cymk] and [background_color_cymk] are written in the order of the parameters,
    cyan, yellow, magenta, black: not in the order of DeviceCMYK. *)
Theorem C51_cymk_refuted : exists c y m k s v,
  forallb real_ok [c; y; m; k] = true /\
  inner (write_obj (AppearanceCharacteristics_obj [Typed (AppearanceCharacteristics_border_color_cymk c y m k)])
                   (obj_direct 0 false false) buf_new) = s /\
  parse_object s = Some v /\ ~ is_dict [(lit "BC", is_reals [c; m; y; k])] v.
Proof.
  exists f32_zero, (FFin false 8388608 (-23)), f32_zero, f32_zero, (lit "<</BC[0 1 0 0]>>").
  exists (VDict [(lit "BC", VArr [VInt 0; VInt 1; VInt 0; VInt 0])]).
  split; [vm_compute; reflexivity|]. split; [vm_compute; reflexivity|]. split; [vm_compute; reflexivity|].
  intros (d & E & F). injection E as <-. inversion F as [|? ? ? ? [_ A] _]; subst.
  cbn [snd] in A. destruct A as (vs & E & G). injection E as <-.
  inversion G as [|? ? ? ? _ G2]; subst. inversion G2 as [|? ? ? ? R _]; subst. inversion R; subst.
  match goal with K : rounds_to _ _ _ |- _ => destruct K as (_ & _ & _ & Z) end. destruct (Z (FFin false 8388608 (-23)) eq_refl eq_refl) as [L _]. vm_compute in L. contradiction L. reflexivity.
Qed.
'''
EXTRA_PROP['Forms']=r'''(** ** Deviations *)

(** Documented as [AppearanceFilter], written as [LockDocument]. *)
Theorem C52_appearance_filter_refuted : forall t,
  text_ok t = true ->
  reads (SignatureSeedValue_obj [Typed (SignatureSeedValue_appearance_filter t)])
        (fun v => ~ is_dict [(lit "Type", is_name (lit "SV")); (lit "AppearanceFilter", is_text t)] v).
Proof.
  intros t H. eapply reads_weaken.
  - apply C52_signature_seed_value. unfold SignatureSeedValue_ok. cbn [forallb raw_ok SignatureSeedValue_call_ok]. rewrite H. reflexivity.
  - intros v (d & -> & F) (d' & E & F'). injection E as <-.
    inversion F as [|? ? ? ? _ G]; subst. inversion G as [|? x ? ? [A _] _]; subst.
    inversion F' as [|? ? ? ? _ G']; subst. inversion G' as [|? ? ? ? [B _] _]; subst.
    cbn [fst] in A, B. rewrite A in B. discriminate.
Qed.

(** Documented as [SignaturePolicyCommitmentType], written as [SignaturePolicyHashAlgorithm]. *)
Theorem C52_commitment_type_refuted : forall l,
  reads (CertificateSeedValue_obj [Typed (CertificateSeedValue_signature_policy_commitment_type l)])
        (fun v => ~ is_dict [(lit "Type", is_name (lit "SVCert")); (lit "SignaturePolicyCommitmentType", is_array_of is_str l)] v).
Proof.
  intros l. eapply reads_weaken.
  - apply C52_certificate_seed_value. reflexivity.
  - intros v (d & -> & F) (d' & E & F'). injection E as <-.
    inversion F as [|? ? ? ? _ G]; subst. inversion G as [|? x ? ? [A _] _]; subst.
    inversion F' as [|? ? ? ? _ G']; subst. inversion G' as [|? ? ? ? [B _] _]; subst.
    cbn [fst] in A, B. rewrite A in B. discriminate.
Qed.
'''
EXTRA_PROP['Graphics']=r'''(** ** Deviations *)

(** Table 57: the [Font] entry is an array of an indirect reference and a size; a name is written, for every
    argument. *)
Theorem C55_font_refuted : forall font size,
  name_ok font = true -> real_ok size = true ->
  reads (ExtGraphicsState_obj [Typed (ExtGraphicsState_font font size)])
        (fun v => forall id, ~ is_dict [(lit "Type", is_name (lit "ExtGState")); (lit "Font", is_array [is_ref id; is_real size])] v).
Proof.
  intros f s H1 H2. eapply reads_weaken.
  - apply C55_ext_graphics_state. unfold ExtGraphicsState_ok. cbn [forallb raw_ok ExtGraphicsState_call_ok]. rewrite H1, H2. reflexivity.
  - intros v (d & -> & F) id (d' & E & F'). injection E as <-.
    inversion F as [|? ? ? ? _ G]; subst. inversion G as [|? x ? ? [_ A] _]; subst.
    inversion F' as [|? ? ? ? _ G']; subst. inversion G' as [|? ? ? ? [_ B] _]; subst.
    cbn [snd] in A, B. destruct A as (vs & E1 & A). destruct B as (ws & E2 & B). rewrite E1 in E2. injection E2 as <-.
    inversion A as [|? ? ? ? A1 _]; subst. inversion B as [|? ? ? ? B1 _]; subst. unfold is_name in A1. unfold is_ref in B1. congruence.
Qed.
'''
EXTRA_PROP['Doc']=r'''(** ** Deviations *)

(** The boolean entry [B] of a fly transition is documented; a number is written under [F]. *)
Theorem C50_opaque_refuted : forall x,
  real_ok x = true ->
  reads (Transition_obj [Typed (Transition_opaque x)])
        (fun v => forall p, ~ is_dict [(lit "Type", is_name (lit "Trans")); (lit "B", p)] v).
Proof.
  intros x H. eapply reads_weaken.
  - apply C50_transition. unfold Transition_ok. cbn [forallb raw_ok Transition_call_ok]. rewrite H. reflexivity.
  - intros v (d & -> & F) p (d' & E & F'). injection E as <-.
    inversion F as [|? ? ? ? _ G]; subst. inversion G as [|? ? ? ? [A _] _]; subst.
    inversion F' as [|? ? ? ? _ G']; subst. inversion G' as [|? ? ? ? [B _] _]; subst.
    cbn [fst] in A, B. rewrite A in B. discriminate.
Qed.
'''
