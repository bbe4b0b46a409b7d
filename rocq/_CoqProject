-Q theories Verif
theories/PyBase.v
theories/MemFile_Spec.v
theories/Stencil_Model.v
theories/Stencil_Spec.v
theories/Stencil_Proofs.v
theories/Stencil_Props.v
theories/Joined_Model.v
theories/Joined_Spec.v
theories/Joined_Proofs.v
theories/Joined_Props.v
theories/Conc_Model.v
theories/Conc_Proofs.v
theories/Conc_Props.v
theories/PyDict.v
theories/Lru_Model.v
theories/Lru_Spec.v
theories/Lru_Proofs.v
theories/Lru_Props.v
theories/Block_Model.v
theories/Block_Proofs.v
theories/Block_Props.v
theories/Blob_Model.v
theories/Blob_Proofs.v
theories/Blob_Props.v
theories/PyStr.v
theories/Path_Model.v
theories/Path_Spec.v
theories/Path_Proofs.v
theories/Path_Props.v
theories/FileInfo.v
theories/Index_Model.v
theories/Index_Spec.v
theories/Index_Proofs.v
theories/Index_Props.v
theories/Build_Proofs.v
theories/Build_Props.v
theories/Crash_Model.v
theories/Crash_Proofs.v
theories/Crash_Props.v
theories/Xattr_Model.v
theories/Xattr_Spec.v
theories/Xattr_Proofs.v
theories/Xattr_Props.v
theories/Union_Model.v
theories/Union_Spec.v
theories/Union_Proofs.v
theories/Tree_Source.v
theories/Union_Props.v
theories/Layers_Model.v
theories/Layers_Spec.v
theories/Layers_Proofs.v
theories/Layers_Props.v
theories/PyInt.v
theories/Version_Model.v
theories/Version_Spec.v
theories/Version_Proofs.v
theories/Version_Props.v
theories/Subvol_Model.v
theories/Subvol_Spec.v
theories/Subvol_Proofs.v
theories/Subvol_Props.v
theories/Prefix_Model.v
theories/Prefix_Proofs.v
theories/Prefix_Props.v
theories/Auto_Model.v
theories/Auto_Spec.v
theories/Auto_Proofs.v
theories/Auto_Props.v
theories/Sparse_Model.v
theories/Sparse_Spec.v
theories/Sparse_Proofs.v
theories/Sparse_Props.v
theories/Overlay_Model.v
theories/Overlay_Spec.v
theories/Overlay_Proofs.v
theories/Overlay_Steps.v
theories/Overlay_Results.v
theories/Overlay_Props.v
theories/Commit_Model.v
theories/Commit_Spec.v
theories/Commit_Proofs.v
theories/Commit_Steps.v
theories/Commit_Props.v
theories/Fuse_Model.v
theories/Fuse_Spec.v
theories/Fuse_Proofs.v
theories/Fuse_Props.v
theories/Multi_Model.v
theories/Multi_Proofs.v
theories/Multi_Props.v
theories/Command_Model.v
theories/Command_Proofs.v
theories/Command_Props.v
theories/Split_Model.v
theories/Split_Spec.v
theories/Split_Proofs.v
theories/Split_Props.v
theories/Strip_Model.v
theories/Strip_Spec.v
theories/Strip_Proofs.v
theories/Strip_Props.v
theories/Ar_Model.v
theories/Ar_Spec.v
theories/Ar_Proofs.v
theories/Ar_Props.v
theories/TreeIndex_Proofs.v
theories/Asar_Model.v
theories/Asar_Spec.v
theories/Asar_Proofs.v
theories/Asar_Props.v
theories/Folder_Model.v
theories/Folder_Spec.v
theories/Folder_Proofs.v
theories/Folder_Props.v
theories/Hash_Model.v
theories/Hash_Spec.v
theories/Hash_Proofs.v
theories/Hash_Props.v
theories/Format_Model.v
theories/Format_Spec.v
theories/Format_Proofs.v
theories/Format_Props.v
theories/Locate_Model.v
theories/Locate_Spec.v
theories/Locate_Proofs.v
theories/Locate_Props.v
theories/Spill_Model.v
theories/Spill_Proofs.v
theories/Spill_Props.v
theories/Tar_Model.v
theories/Tar_Spec.v
theories/Tar_Proofs.v
theories/Tar_Props.v
theories/Append_Model.v
theories/Append_Spec.v
theories/Append_Proofs.v
theories/Append_Tar.v
theories/Append_Props.v
theories/SeqIndex_Proofs.v
theories/Lib_Model.v
theories/Lib_Spec.v
theories/Lib_Proofs.v
theories/LibIndex_Model.v
theories/LibIndex_Spec.v
theories/LibIndex_Proofs.v
theories/LibShared_Model.v
theories/LibShared_Spec.v
theories/LibShared_Proofs.v
theories/Lib_Props.v
theories/TarRead_Model.v
theories/TarRead_Spec.v
theories/TarRead_Proofs.v
theories/TarRead_Props.v
theories/Factory_Model.v
theories/Factory_Spec.v
theories/Factory_Proofs.v
theories/Factory_Props.v
theories/Rar_Model.v
theories/Rar_Spec.v
theories/Rar_Proofs.v
theories/Rar_Props.v
theories/Sqlar_Model.v
theories/Sqlar_Spec.v
theories/Sqlar_Proofs.v
theories/Sqlar_Props.v
theories/Member_Proofs.v
theories/Zip_Model.v
theories/Zip_Spec.v
theories/Zip_Props.v
theories/Seven_Model.v
theories/Seven_Spec.v
theories/Seven_Props.v
theories/Pass_Model.v
theories/Pass_Spec.v
theories/Pass_Props.v
theories/Squash_Model.v
theories/Squash_Spec.v
theories/Squash_Proofs.v
theories/Squash_Props.v
theories/Fat_Model.v
theories/Fat_Spec.v
theories/Fat_Proofs.v
theories/Fat_Props.v
theories/FatDir_Model.v
theories/FatDir_Spec.v
theories/FatDir_Proofs.v
theories/FatDir_Props.v
theories/FatTree_Model.v
theories/FatTree_Spec.v
theories/FatTree_Proofs.v
theories/FatTree_Props.v
theories/Front_Spec.v
theories/Front_Model.v
theories/Front_Proofs.v
theories/Front_Props.v
theories/Own_Spec.v
theories/Own_Model.v
theories/Own_Proofs.v
theories/Own_Props.v
theories/Pdf_Model.v
theories/Pdf_Spec.v
theories/Pdf_Proofs.v
theories/Pdf_Props.v
theories/Git_Model.v
theories/Git_Spec.v
theories/Git_Proofs.v
theories/Git_Props.v
theories/Fsspec_Model.v
theories/Fsspec_Spec.v
theories/Fsspec_Proofs.v
theories/Fsspec_Props.v
theories/Offsets_Model.v
theories/Offsets_Spec.v
theories/Offsets_Proofs.v
theories/Offsets_Props.v
theories/Pax_Model.v
theories/Pax_Spec.v
theories/Pax_Proofs.v
theories/Pax_Props.v
theories/Cli_Model.v
theories/Cli_Spec.v
theories/Cli_Proofs.v
theories/Cli_Props.v
theories/Seek_Model.v
theories/Seek_Spec.v
theories/Seek_Proofs.v
theories/Seek_Props.v
theories/Single_Model.v
theories/Single_Spec.v
theories/Single_Proofs.v
theories/Single_Props.v
theories/Mounts_Model.v
theories/Mounts_Spec.v
theories/Mounts_Proofs.v
theories/Mounts_Props.v
theories/Reuse_Model.v
theories/Reuse_Spec.v
theories/Reuse_Proofs.v
theories/Reuse_Props.v
theories/Ogg_Model.v
theories/Ogg_Spec.v
theories/Ogg_Proofs.v
theories/Ogg_Props.v
theories/Html_Model.v
theories/Html_Spec.v
theories/Html_Proofs.v
theories/Html_Props.v
theories/Rehash_Model.v
theories/Rehash_Props.v
theories/Lone_Model.v
theories/Lone_Props.v
theories/Prefetch_Props.v
theories/Check_Model.v
theories/Check_Props.v
theories/Depth_Model.v
theories/Depth_Props.v
theories/Zeros_Props.v
theories/HtmlName_Model.v
theories/HtmlName_Spec.v
theories/HtmlName_Props.v
theories/HtmlCss_Model.v
theories/HtmlCss_Spec.v
theories/HtmlCss_Props.v
theories/Url_Model.v
theories/Url_Spec.v
theories/Url_Props.v
theories/ArMount_Model.v
theories/ArMount_Props.v
theories/Zcompress_Model.v
theories/Zcompress_Spec.v
theories/Zcompress_Props.v
theories/Ext_Model.v
theories/Ext_Spec.v
theories/Ext_Props.v
theories/PdfMount_Model.v
theories/PdfMount_Props.v
theories/Served_Model.v
theories/Served_Spec.v
theories/Served_Proofs.v
theories/Served_Props.v
theories/Ls_Model.v
theories/Ls_Spec.v
theories/Ls_Proofs.v
theories/Ls_Props.v
theories/TarMark_Proofs.v
theories/TarMark_Props.v
theories/OldVer_Spec.v
theories/OldVer_Proofs.v
theories/OldVer_Props.v
theories/DeepLs_Proofs.v
theories/Deep_Spec.v
theories/Deep_Proofs.v
theories/Deep_Props.v
theories/OverlayFail_Props.v
theories/HtmlDoc_Model.v
theories/HtmlDoc_Spec.v
theories/HtmlDoc_Proofs.v
theories/HtmlDoc_Props.v
theories/FsTime_Model.v
theories/FsTime_Spec.v
theories/FsTime_Proofs.v
theories/FsTime_Props.v
theories/DosTime_Model.v
theories/DosTime_Spec.v
theories/DosTime_Props.v
theories/ZipTime_Model.v
theories/ZipTime_Props.v
