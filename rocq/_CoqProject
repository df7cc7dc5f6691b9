-Q theories Verif
theories/Model/Base.v
theories/Model/Utf.v
theories/Model/Keys.v
theories/Model/Reader.v
theories/Model/WzStr.v
theories/Proofs/BaseL.v
theories/Spec/Wire.v
theories/Spec/Stream.v
theories/Proofs/WireL.v
theories/Proofs/KeysL.v
theories/Proofs/StringL.v
theories/Proofs/ReaderL.v
theories/Props/P_Reader.v
theories/Props/P_Keys.v
theories/Props/P_Strings.v
theories/Model/Header.v
theories/Model/Offset.v
theories/Model/VersionPkg1.v
theories/Model/VersionPkg2.v
theories/Spec/Version.v
theories/Spec/HeaderSpec.v
theories/Proofs/VersionL.v
theories/Proofs/Pkg1L.v
theories/Proofs/HeaderL.v
theories/Props/P_Offset.v
theories/Props/P_Version.v
theories/Props/P_Header.v
theories/Spec/StrWire.v
theories/Proofs/StrWireL.v
theories/Props/P_StrWire.v
theories/Props/P_Pkg2Keys.v
theories/Model/Image.v
theories/Spec/PropWire.v
theories/Spec/PropView.v
theories/Spec/PropEnc.v
theories/Spec/PathSpec.v
theories/Proofs/AtL.v
theories/Proofs/ImageL.v
theories/Proofs/ParseL.v
theories/Proofs/ScanL.v
theories/Proofs/TermL.v
theories/Proofs/EncL.v
theories/Proofs/BlowL.v
theories/Props/P_Image.v
theories/Model/Directory.v
theories/Spec/DirWire.v
theories/Spec/DirView.v
theories/Spec/DirWire2.v
theories/Proofs/DirL.v
theories/Proofs/Dir2L.v
theories/Proofs/OpenL.v
theories/Props/P_Directory.v
theories/Model/Node.v
theories/Spec/Tree.v
theories/Proofs/NodeL.v
theories/Proofs/UolL.v
theories/Proofs/WalkL.v
theories/Proofs/MoveL.v
theories/Proofs/LookL.v
theories/Props/P_Node.v
theories/Props/P_Link.v
theories/Props/P_DirReject.v
theories/Props/P_Edit.v
theories/Model/Png.v
theories/Spec/Pixel.v
theories/Proofs/PngL.v
theories/Proofs/DxtL.v
theories/Proofs/GridL.v
theories/Proofs/RawL.v
theories/Proofs/CanvasL.v
theories/Props/P_Canvas.v
theories/Spec/Aes.v
theories/Model/Media.v
theories/Spec/Media.v
theories/Proofs/AesL.v
theories/Proofs/MediaL.v
theories/Props/P_Media.v
theories/Model/Snow2.v
theories/Model/Ms.v
theories/Spec/Snow2.v
theories/Spec/Ms.v
theories/Proofs/Snow2L.v
theories/Proofs/MsReadL.v
theories/Props/P_Snow2.v
theories/Props/P_MsRead.v
theories/Spec/MsFile.v
theories/Spec/MsFile2.v
theories/Spec/ChaCha.v
theories/Proofs/MsFileL.v
theories/Proofs/MsRead2L.v
theories/Proofs/StrictL.v
theories/Proofs/MsFile2L.v
theories/Props/P_Ms.v
theories/Props/P_MsRead2.v
theories/Props/P_Ms2.v
theories/Props/P_Strict.v
theories/Model/Guess.v
theories/Spec/KeyFind.v
theories/Proofs/GuessL.v
theories/Props/P_Guess.v
theories/Model/File.v
theories/Proofs/FileL.v
theories/Props/P_File.v
theories/Model/Json.v
theories/Model/JsonHeap.v
theories/Spec/JsonView.v
theories/Spec/JsonProp.v
theories/Proofs/JsonL.v
theories/Proofs/JsonFullL.v
theories/Proofs/JsonPropL.v
theories/Props/P_Json.v
theories/Model/Resolver.v
theories/Spec/Install.v
theories/Proofs/InstallL.v
theories/Proofs/ResolveL.v
theories/Props/P_Resolve.v
theories/Spec/JsonStored.v
theories/Proofs/JsonStoredL.v
theories/Props/P_JsonStored.v
theories/Props/P_Guess2.v
theories/Model/Picture.v
theories/Spec/Picture.v
theories/Proofs/PictureL.v
theories/Props/P_Picture.v
theories/Model/FreeRead.v
theories/Model/Vector.v
theories/Model/BaseReader.v
theories/Model/World.v
theories/Spec/FreeRead.v
theories/Spec/Handles.v
theories/Spec/Whole.v
theories/Proofs/FreeReadL.v
theories/Proofs/BaseReaderL.v
theories/Proofs/WorldL.v
theories/Proofs/WalkWL.v
theories/Props/P_FreeRead.v
theories/Props/P_Vector.v
theories/Props/P_BaseReader.v
theories/Props/P_Whole.v
theories/Props/P_Tour.v
theories/Props/P_Archive.v
theories/Props/P_ImgFile.v
theories/Props/P_SetIv.v
theories/Props/P_Chain.v
theories/Props/P_Generation.v
theories/Spec/Lossy.v
theories/Proofs/LossyL.v
theories/Props/P_Lossy.v
theories/Props/P_Detect.v
theories/Spec/Linked.v
theories/Proofs/LinkedL.v
theories/Props/P_Linked.v
theories/Model/WorldPicture.v
theories/Spec/Portrait.v
theories/Spec/Outlook.v
theories/Spec/Blocked.v
theories/Proofs/PortraitL.v
theories/Proofs/OutlookL.v
theories/Proofs/BlockL.v
theories/Proofs/CasesL.v
theories/Props/P_Portrait.v
theories/Props/P_Outlook.v
theories/Props/P_Blocked.v
theories/Props/P_Album.v
theories/Spec/WholeLinks.v
theories/Proofs/LinkWorldL.v
theories/Proofs/TourLinksL.v
theories/Proofs/TourEndL.v
theories/Props/P_LinkPack.v
theories/Props/P_LinkTour.v
theories/Props/P_LinkEnd.v
theories/Spec/PortraitLinks.v
theories/Proofs/PortraitLinksL.v
theories/Proofs/OwnL.v
theories/Props/P_LinkPicture.v
theories/Props/P_LinkAlbum.v
theories/Spec/Stroll.v
theories/Proofs/StrollL.v
theories/Proofs/LostL.v
theories/Props/P_Stroll.v
theories/Proofs/FreedL.v
theories/Props/P_Freed.v
