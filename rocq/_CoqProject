-Q theories Verif
theories/Base.v
theories/Core_model.v
theories/Core_spec.v
theories/Core_proofs.v
theories/Core_props.v
theories/Cache_model.v
theories/Cache_spec.v
theories/Cache_proofs.v
theories/Cache_props.v
theories/Str_model.v
theories/Str_spec.v
theories/Str_proofs.v
theories/Str_props.v
theories/Buf_model.v
theories/Buf_spec.v
theories/Buf_proofs.v
theories/Buf_props.v
theories/Map_model.v
theories/Map_spec.v
theories/Map_proofs.v
theories/Map_props.v
theories/Tab_model.v
theories/Tab_spec.v
theories/Tab_proofs.v
theories/Tab_props.v
theories/Util_proofs.v
theories/Hash_model.v
theories/Hash_spec.v
theories/Hash_proofs.v
theories/Hash_props.v
theories/Iter_model.v
theories/Iter_spec.v
theories/Iter_proofs.v
theories/Rel_model.v
theories/Rel_spec.v
theories/Rel_proofs.v
theories/Rel_props.v
theories/Note_model.v
theories/Note_spec.v
theories/Note_proofs.v
theories/Note_props.v
theories/Attr_model.v
theories/Attr_spec.v
theories/Attr_proofs.v
theories/Attr_props.v
theories/Pod_proofs.v
theories/Ver_model.v
theories/Ver_spec.v
theories/Ver_proofs.v
theories/Ver_props.v
theories/File_spec.v
theories/File_proofs.v
theories/Elf_model.v
theories/Elf_spec.v
theories/Elf_proofs.v
theories/Elf_props.v
theories/ElfR_model.v
theories/ElfR_spec.v
theories/ElfR_proofs.v
theories/ElfR_props.v
theories/Enum_model.v
theories/Kind_tables.v
theories/Kind_model.v
theories/Kind_spec.v
theories/Kind_proofs.v
theories/Kind_props.v
theories/Obj_model.v
theories/Obj_spec.v
theories/Obj_proofs.v
theories/Obj_props.v
theories/Ar_model.v
theories/Ar_spec.v
theories/Ar_proofs.v
theories/ArSym_proofs.v
theories/ArEnc_proofs.v
theories/Ar_props.v
theories/Coff_model.v
theories/CoffW_model.v
theories/Coff_spec.v
theories/Coff_proofs.v
theories/CoffW_proofs.v
theories/CoffR_proofs.v
theories/CoffI_proofs.v
theories/Coff_props.v
theories/Pe_model.v
theories/Pe_spec.v
theories/Pe_proofs.v
theories/PeX_proofs.v
theories/PeI_proofs.v
theories/PeF_proofs.v
theories/PeT_proofs.v
theories/PeD_proofs.v
theories/PeW_model.v
theories/PeW_spec.v
theories/PeW_proofs.v
theories/PeWI_proofs.v
theories/PeWF_proofs.v
theories/PeWG_proofs.v
theories/PeWC_proofs.v
theories/Pe_props.v
theories/Trie_model.v
theories/Trie_spec.v
theories/Trie_proofs.v
theories/TrieR_proofs.v
theories/Trie_props.v
theories/Mach_model.v
theories/MachW_model.v
theories/Mach_spec.v
theories/Mach_proofs.v
theories/MachF_proofs.v
theories/MachP_proofs.v
theories/MachQ_proofs.v
theories/MachM_proofs.v
theories/Mach_props.v
theories/MachW_spec.v
theories/MachW_proofs.v
theories/MachWS_proofs.v
theories/MachWF_proofs.v
theories/MachWR_proofs.v
theories/MachWT_proofs.v
theories/MachW_props.v
theories/ElfW_model.v
theories/ElfW_spec.v
theories/ElfWR_proofs.v
theories/ElfWB_proofs.v
theories/ElfWC_proofs.v
theories/ElfWT_proofs.v
theories/ElfF_model.v
theories/ElfF_spec.v
theories/ElfF_proofs.v
theories/ElfG_proofs.v
theories/ElfH_proofs.v
theories/ElfI_proofs.v
theories/ElfJ_proofs.v
theories/ElfK_proofs.v
theories/ElfF_props.v
theories/ElfW_props.v
theories/ElfO_model.v
theories/ElfO_proofs.v
theories/ElfOB_proofs.v
theories/ElfOC_proofs.v
theories/ElfOD_proofs.v
theories/ElfOE_proofs.v
theories/ElfOF_proofs.v
theories/ElfOG_proofs.v
theories/ElfOH_proofs.v
theories/ElfOI_proofs.v
theories/ElfO_spec.v
theories/ElfOJ_proofs.v
theories/ElfOK_proofs.v
theories/ElfOL_proofs.v
theories/ElfOM_proofs.v
theories/ElfON_proofs.v
theories/ElfOO_proofs.v
theories/ElfOP_proofs.v
theories/ElfO_props.v
theories/Dyld_model.v
theories/Dyld_spec.v
theories/Dyld_proofs.v
theories/DyldR_proofs.v
theories/DyldB_proofs.v
theories/Dyld_props.v
theories/Fix_model.v
theories/Fix_spec.v
theories/Fix_proofs.v
theories/FixC_proofs.v
theories/FixI_proofs.v
theories/FixS_proofs.v
theories/Fix_props.v
theories/Fkind_model.v
theories/Fkind_spec.v
theories/Fkind_proofs.v
theories/FkindI_proofs.v
theories/Fkind_props.v
theories/Xcoff_model.v
theories/Xcoff_spec.v
theories/Xcoff_proofs.v
theories/XcoffR_proofs.v
theories/XcoffW_proofs.v
theories/XcoffB_proofs.v
theories/XcoffC_proofs.v
theories/Xcoff_props.v
theories/Build_model.v
theories/Build_spec.v
theories/Build_proofs.v
theories/BuildD_proofs.v
theories/BuildV_proofs.v
theories/BuildM_proofs.v
theories/BuildL_proofs.v
theories/BuildR_proofs.v
theories/Build_props.v
theories/Sign_model.v
theories/Sign_spec.v
theories/Sign_proofs.v
theories/Sign_props.v
theories/Imp_model.v
theories/Imp_spec.v
theories/Imp_proofs.v
theories/ImpD_proofs.v
theories/Imp_props.v
theories/Shc_model.v
theories/Shc_spec.v
theories/Shc_proofs.v
theories/ShcA_proofs.v
theories/ShcR_proofs.v
theories/ShcS_proofs.v
theories/ShcP_proofs.v
theories/ShcQ_proofs.v
theories/Shc_props.v
theories/Bver_model.v
theories/Bver_spec.v
theories/Bver_proofs.v
theories/Bver2_proofs.v
theories/Bver3_proofs.v
theories/Bver_props.v
