(* Generated by tools/gen_models.py from the struct definitions of /repo/xmp and /repo/models: the types of all
   models and of the values in them, with their xmp tags, namespaces, Can and Namespaces methods and factories.
   Parameters: the text form of every type that has one (by the name of the Go type; float32 and float64 too), and
   whether the denominator of a Rational is zero.
   Simplifications: TypeM.v's. Types with reading and writing methods of their own are [special]: no such value can be
   written, so no theorem speaks about models that have one; likewise records that are read by UnmarshalText.
   exif.Flash, xmpdm.MediaTime and xmp.Uri are described without the forms of input that the encoder never writes
   (text, attributes and rdf:resource). int has 64 bits. *)
From Coq Require Import List Arith ZArith Bool Ascii String.
From Verif Require Import GoStr GoMap Names Semver RegistryM NodeM ArrayM TypeM TagM DecodeM.
Import ListNotations.
Local Open Scope string_scope.

Section Library.
Context {X : Type}.
Variable cdc : string -> codec X.
Variable den_zero : gval X -> bool.

(* a field of a Go struct: its name, its xmp tag and its type *)
Record gofield := F { go_name : string; go_tag : string; go_type : ty X }.
Definition raw := list gofield.
(* the fields getTypeInfo finds (typeinfo.go:128-193): all but those tagged "-"; there are no embedded structs *)
Definition kept (r : raw) : raw := filter (fun f => negb (go_tag f =? "-")) r.
Definition finfo_of (i : tag_info) : finfo :=
  Finfo (ti_name i) (ti_attr i) (ti_empty i) (ti_omit i) (ti_any i) (ti_min i) (ti_max i).
Definition fields (r : raw) : list (finfo * ty X) :=
  flat_map (fun f => match parse_tag (go_name f) (go_tag f) with Ok i => [(finfo_of i, go_type f)] | _ => [] end) (kept r).

(* An IsZero method that looks at these fields: x.F == 0, x.F == "", len(x.F) == 0, x.F.IsZero(), !x.F.Value() or
   (x.F == nil || x.F.IsZero()), which is what isEmptyValue asks of them. *)
Fixpoint all_zero_in (l : raw) (names : list string) (vs : list (gval X)) : bool :=
  match l, vs with
  | f :: l', v :: vs' => (negb (existsb (String.eqb (go_name f)) names) || is_empty (go_type f) v) && all_zero_in l' names vs'
  | _, _ => true
  end.
Definition all_zero (r : raw) (names : list string) (vs : list (gval X)) : bool := all_zero_in (kept r) names vs.
(* MediaTime.IsZero, models/xmp_dm/types.go:507-509 *)
Definition media_time_zero (vs : list (gval X)) : bool :=
  match vs with [scale; VInt v] => (v =? 0)%Z && den_zero scale | _ => false end.
(* IsZero of OECF, CFAPattern and DeviceSettings, models/exif/types.go:166-168, 217-219, 268-270 *)
Definition cols_or_rows_zero (vs : list (gval X)) : bool :=
  match vs with VInt c :: VInt r :: _ => (c =? 0)%Z || (r =? 0)%Z | _ => false end.

Definition special : ty X :=
  TText (Codec _ (fun _ => Err "not described") (fun _ _ => Err "not described") VNil (fun v => is_nil v) true).

(* xmp/xmp_types.go:422 *)
Definition t_xmp_Uri : ty X := TStr.
(* models/cc/model.go:57-62. *)
Definition fs_cc_CC : raw := [
   F "License" "cc:license" (t_xmp_Uri);
   F "MorePermissions" "cc:morePermissions" (t_xmp_Uri);
   F "AttributionURL" "cc:attributionURL" (t_xmp_Uri);
   F "AttributionName" "cc:attributionName" (TStr)].
Definition t_cc_CC : ty X := TStruct (StructInfo _ None false) (fields fs_cc_CC).
(* xmp/xmp_types.go:53 *)
Definition t_xmp_Bool : ty X := TText (cdc "xmp.Bool").
(* models/crs/enum.go:17 *)
Definition t_crs_CropUnits : ty X := TInt 64.
(* xmp/array.go:443 *)
Definition t_xmp_StringArray : ty X := TArr (ArrInfo _ "Bag" true (Some (cdc "xmp.StringArray")) true) (TStr).
(* models/crs/enum.go:25 *)
Definition t_crs_ToneCurve : ty X := TStr.
(* models/crs/enum.go:34 *)
Definition t_crs_WhiteBalance : ty X := TStr.
(* models/crs/types.go:26-29 *)
Definition t_crs_Point : ty X := TText (cdc "crs.Point").
(* models/crs/types.go:57 *)
Definition t_crs_PointList : ty X := TArr (ArrInfo _ "Seq" true (None) false) (t_crs_Point).
(* xmp/array.go:353 *)
Definition t_xmp_StringList : ty X := TArr (ArrInfo _ "Seq" true (Some (cdc "xmp.StringList")) true) (TStr).
(* models/crs/types.go:110-138. *)
Definition fs_crs_CorrectionMask : raw := [
   F "What" "crs:What,attr" (TStr);
   F "MaskValue" "crs:MaskValue,attr" (TText (cdc "float32"));
   F "Radius" "crs:Radius,attr" (TText (cdc "float32"));
   F "Flow" "crs:Flow,attr" (TText (cdc "float32"));
   F "CenterWeight" "crs:CenterWeight,attr" (TText (cdc "float32"));
   F "Dabs" "crs:Dabs" (t_xmp_StringList);
   F "ZeroX" "crs:ZeroX,attr" (TText (cdc "float32"));
   F "ZeroY" "crs:ZeroY,attr" (TText (cdc "float32"));
   F "FullX" "crs:FullX,attr" (TText (cdc "float32"));
   F "FullY" "crs:FullY,attr" (TText (cdc "float32"));
   F "Top" "crs:Top,attr" (TText (cdc "float32"));
   F "Left" "crs:Left,attr" (TText (cdc "float32"));
   F "Bottom" "crs:Bottom,attr" (TText (cdc "float32"));
   F "Right" "crs:Right,attr" (TText (cdc "float32"));
   F "Angle" "crs:Angle,attr" (TText (cdc "float32"));
   F "Midpoint" "crs:Midpoint,attr" (TText (cdc "float32"));
   F "Roundness" "crs:Roundness,attr" (TText (cdc "float32"));
   F "Feather" "crs:Feather,attr" (TText (cdc "float32"));
   F "Flipped" "crs:Flipped,attr" (t_xmp_Bool);
   F "Version" "crs:Version,attr" (TInt 64);
   F "SizeX" "crs:SizeX,attr" (TText (cdc "float32"));
   F "SizeY" "crs:SizeY,attr" (TText (cdc "float32"));
   F "X" "crs:X,attr" (TText (cdc "float32"));
   F "Y" "crs:Y,attr" (TText (cdc "float32"));
   F "Alpha" "crs:Alpha,attr" (TText (cdc "float32"));
   F "CenterValue" "crs:CenterValue,attr" (TText (cdc "float32"));
   F "PerimeterValue" "crs:PerimeterValue,attr" (TText (cdc "float32"))].
Definition t_crs_CorrectionMask : ty X := TStruct (StructInfo _ None false) (fields fs_crs_CorrectionMask).
(* models/crs/types.go:140 *)
Definition t_crs_CorrectionMaskList : ty X := TArr (ArrInfo _ "Seq" true (None) false) (t_crs_CorrectionMask).
(* models/crs/types.go:71-94. *)
Definition fs_crs_Correction : raw := [
   F "What" "crs:What,attr" (TStr);
   F "CorrectionAmount" "crs:CorrectionAmount,attr" (TText (cdc "float32"));
   F "CorrectionActive" "crs:CorrectionActive,attr" (t_xmp_Bool);
   F "LocalExposure" "crs:LocalExposure,attr" (TText (cdc "float32"));
   F "LocalSaturation" "crs:LocalSaturation,attr" (TText (cdc "float32"));
   F "LocalContrast" "crs:LocalContrast,attr" (TText (cdc "float32"));
   F "LocalBrightness" "crs:LocalBrightness,attr" (TText (cdc "float32"));
   F "LocalClarity" "crs:LocalClarity,attr" (TText (cdc "float32"));
   F "LocalSharpness" "crs:LocalSharpness,attr" (TText (cdc "float32"));
   F "LocalToningHue" "crs:LocalToningHue,attr" (TText (cdc "float32"));
   F "LocalToningSaturation" "crs:LocalToningSaturation,attr" (TText (cdc "float32"));
   F "LocalExposure2012" "crs:LocalExposure2012,attr" (TText (cdc "float32"));
   F "LocalContrast2012" "crs:LocalContrast2012,attr" (TText (cdc "float32"));
   F "LocalHighlights2012" "crs:LocalHighlights2012,attr" (TText (cdc "float32"));
   F "LocalShadows2012" "crs:LocalShadows2012,attr" (TText (cdc "float32"));
   F "LocalClarity2012" "crs:LocalClarity2012,attr" (TText (cdc "float32"));
   F "LocalLuminanceNoise" "crs:LocalLuminanceNoise,attr" (TText (cdc "float32"));
   F "LocalMoire" "crs:LocalMoire,attr" (TText (cdc "float32"));
   F "LocalDefringe" "crs:LocalDefringe,attr" (TText (cdc "float32"));
   F "LocalTemperature" "crs:LocalTemperature,attr" (TText (cdc "float32"));
   F "LocalTint" "crs:LocalTint,attr" (TText (cdc "float32"));
   F "CorrectionMasks" "crs:CorrectionMasks" (t_crs_CorrectionMaskList)].
Definition t_crs_Correction : ty X := TStruct (StructInfo _ None false) (fields fs_crs_Correction).
(* models/crs/types.go:96 *)
Definition t_crs_CorrectionList : ty X := TArr (ArrInfo _ "Seq" true (None) false) (t_crs_Correction).
(* models/crs/types.go:154-164. *)
Definition fs_crs_RetouchArea : raw := [
   F "SpotType" "crs:SpotType,attr" (TStr);
   F "SourceState" "crs:SourceState,attr" (TStr);
   F "Method" "crs:Method,attr" (TStr);
   F "SourceX" "crs:SourceX,attr" (TText (cdc "float32"));
   F "OffsetY" "crs:OffsetY,attr" (TText (cdc "float32"));
   F "Opacity" "crs:Opacity,attr" (TText (cdc "float32"));
   F "Feather" "crs:Feather,attr" (TText (cdc "float32"));
   F "Seed" "crs:Seed,attr" (TInt 64);
   F "Masks" "crs:Masks" (t_crs_CorrectionMaskList)].
Definition t_crs_RetouchArea : ty X := TStruct (StructInfo _ None false) (fields fs_crs_RetouchArea).
(* models/crs/types.go:166 *)
Definition t_crs_RetouchAreaList : ty X := TArr (ArrInfo _ "Seq" true (None) false) (t_crs_RetouchArea).
(* models/crs/model.go:52-250. *)
Definition fs_crs_CameraRawInfo : raw := [
   F "AutoBrightness" "crs:AutoBrightness" (t_xmp_Bool);
   F "AutoContrast" "crs:AutoContrast" (t_xmp_Bool);
   F "AutoExposure" "crs:AutoExposure" (t_xmp_Bool);
   F "AutoShadows" "crs:AutoShadows" (t_xmp_Bool);
   F "BlueHue" "crs:BlueHue" (TInt 64);
   F "BlueSaturation" "crs:BlueSaturation" (TInt 64);
   F "Brightness" "crs:Brightness" (TInt 64);
   F "CameraProfile" "crs:CameraProfile" (TStr);
   F "ChromaticAberrationB" "crs:ChromaticAberrationB" (TInt 64);
   F "ChromaticAberrationR" "crs:ChromaticAberrationR" (TInt 64);
   F "ColorNoiseReduction" "crs:ColorNoiseReduction" (TInt 64);
   F "Contrast" "crs:Contrast" (TInt 64);
   F "CropTop" "crs:CropTop" (TText (cdc "float32"));
   F "CropLeft" "crs:CropLeft" (TText (cdc "float32"));
   F "CropBottom" "crs:CropBottom" (TText (cdc "float32"));
   F "CropRight" "crs:CropRight" (TText (cdc "float32"));
   F "CropAngle" "crs:CropAngle" (TText (cdc "float32"));
   F "CropWidth" "crs:CropWidth" (TText (cdc "float32"));
   F "CropHeight" "crs:CropHeight" (TText (cdc "float32"));
   F "CropUnits" "crs:CropUnits" (t_crs_CropUnits);
   F "Exposure" "crs:Exposure" (TText (cdc "float32"));
   F "GreenHue" "crs:GreenHue" (TInt 64);
   F "GreenSaturation" "crs:GreenSaturation" (TInt 64);
   F "HasCrop" "crs:HasCrop" (t_xmp_Bool);
   F "HasSettings" "crs:HasSettings" (t_xmp_Bool);
   F "LuminanceSmoothing" "crs:LuminanceSmoothing" (TInt 64);
   F "RawFileName" "crs:RawFileName" (TStr);
   F "RedHue" "crs:RedHue" (TInt 64);
   F "RedSaturation" "crs:RedSaturation" (TInt 64);
   F "Saturation" "crs:Saturation" (TInt 64);
   F "Shadows" "crs:Shadows" (TInt 64);
   F "ShadowTint" "crs:ShadowTint" (TInt 64);
   F "Sharpness" "crs:Sharpness" (TInt 64);
   F "Temperature" "crs:Temperature" (TInt 64);
   F "Tint" "crs:Tint" (TInt 64);
   F "ToneCurve" "crs:ToneCurve" (t_xmp_StringArray);
   F "ToneCurveName" "crs:ToneCurveName" (t_crs_ToneCurve);
   F "Version" "crs:Version" (TStr);
   F "VignetteAmount" "crs:VignetteAmount" (TInt 64);
   F "VignetteMidpoint" "crs:VignetteMidpoint" (TInt 64);
   F "WhiteBalance" "crs:WhiteBalance" (t_crs_WhiteBalance);
   F "AlreadyApplied" "crs:AlreadyApplied" (t_xmp_Bool);
   F "Dehaze" "crs:Dehaze" (TInt 64);
   F "Converter" "crs:Converter" (TStr);
   F "MoireFilter" "crs:MoireFilter" (TStr);
   F "Smoothness" "crs:Smoothness" (TInt 64);
   F "CameraProfileDigest" "crs:CameraProfileDigest" (TStr);
   F "Clarity" "crs:Clarity" (TInt 64);
   F "ConvertToGrayscale" "crs:ConvertToGrayscale" (t_xmp_Bool);
   F "Defringe" "crs:Defringe" (TInt 64);
   F "FillLight" "crs:FillLight" (TInt 64);
   F "HighlightRecovery" "crs:HighlightRecovery" (TInt 64);
   F "HueAdjustmentAqua" "crs:HueAdjustmentAqua" (TInt 64);
   F "HueAdjustmentBlue" "crs:HueAdjustmentBlue" (TInt 64);
   F "HueAdjustmentGreen" "crs:HueAdjustmentGreen" (TInt 64);
   F "HueAdjustmentMagenta" "crs:HueAdjustmentMagenta" (TInt 64);
   F "HueAdjustmentOrange" "crs:HueAdjustmentOrange" (TInt 64);
   F "HueAdjustmentPurple" "crs:HueAdjustmentPurple" (TInt 64);
   F "HueAdjustmentRed" "crs:HueAdjustmentRed" (TInt 64);
   F "HueAdjustmentYellow" "crs:HueAdjustmentYellow" (TInt 64);
   F "IncrementalTemperature" "crs:IncrementalTemperature" (TInt 64);
   F "IncrementalTint" "crs:IncrementalTint" (TInt 64);
   F "LuminanceAdjustmentAqua" "crs:LuminanceAdjustmentAqua" (TInt 64);
   F "LuminanceAdjustmentBlue" "crs:LuminanceAdjustmentBlue" (TInt 64);
   F "LuminanceAdjustmentGreen" "crs:LuminanceAdjustmentGreen" (TInt 64);
   F "LuminanceAdjustmentMagenta" "crs:LuminanceAdjustmentMagenta" (TInt 64);
   F "LuminanceAdjustmentOrange" "crs:LuminanceAdjustmentOrange" (TInt 64);
   F "LuminanceAdjustmentPurple" "crs:LuminanceAdjustmentPurple" (TInt 64);
   F "LuminanceAdjustmentRed" "crs:LuminanceAdjustmentRed" (TInt 64);
   F "LuminanceAdjustmentYellow" "crs:LuminanceAdjustmentYellow" (TInt 64);
   F "ParametricDarks" "crs:ParametricDarks" (TInt 64);
   F "ParametricHighlights" "crs:ParametricHighlights" (TInt 64);
   F "ParametricHighlightSplit" "crs:ParametricHighlightSplit" (TInt 64);
   F "ParametricLights" "crs:ParametricLights" (TInt 64);
   F "ParametricMidtoneSplit" "crs:ParametricMidtoneSplit" (TInt 64);
   F "ParametricShadows" "crs:ParametricShadows" (TInt 64);
   F "ParametricShadowSplit" "crs:ParametricShadowSplit" (TInt 64);
   F "SaturationAdjustmentAqua" "crs:SaturationAdjustmentAqua" (TInt 64);
   F "SaturationAdjustmentBlue" "crs:SaturationAdjustmentBlue" (TInt 64);
   F "SaturationAdjustmentGreen" "crs:SaturationAdjustmentGreen" (TInt 64);
   F "SaturationAdjustmentMagenta" "crs:SaturationAdjustmentMagenta" (TInt 64);
   F "SaturationAdjustmentOrange" "crs:SaturationAdjustmentOrange" (TInt 64);
   F "SaturationAdjustmentPurple" "crs:SaturationAdjustmentPurple" (TInt 64);
   F "SaturationAdjustmentRed" "crs:SaturationAdjustmentRed" (TInt 64);
   F "SaturationAdjustmentYellow" "crs:SaturationAdjustmentYellow" (TInt 64);
   F "SharpenDetail" "crs:SharpenDetail" (TInt 64);
   F "SharpenEdgeMasking" "crs:SharpenEdgeMasking" (TInt 64);
   F "SharpenRadius" "crs:SharpenRadius" (TText (cdc "float32"));
   F "SplitToningBalance" "crs:SplitToningBalance" (TInt 64);
   F "SplitToningHighlightHue" "crs:SplitToningHighlightHue" (TInt 64);
   F "SplitToningHighlightSaturation" "crs:SplitToningHighlightSaturation" (TInt 64);
   F "SplitToningShadowHue" "crs:SplitToningShadowHue" (TInt 64);
   F "SplitToningShadowSaturation" "crs:SplitToningShadowSaturation" (TInt 64);
   F "Vibrance" "crs:Vibrance" (TInt 64);
   F "GrayMixerRed" "crs:GrayMixerRed" (TInt 64);
   F "GrayMixerOrange" "crs:GrayMixerOrange" (TInt 64);
   F "GrayMixerYellow" "crs:GrayMixerYellow" (TInt 64);
   F "GrayMixerGreen" "crs:GrayMixerGreen" (TInt 64);
   F "GrayMixerAqua" "crs:GrayMixerAqua" (TInt 64);
   F "GrayMixerBlue" "crs:GrayMixerBlue" (TInt 64);
   F "GrayMixerPurple" "crs:GrayMixerPurple" (TInt 64);
   F "GrayMixerMagenta" "crs:GrayMixerMagenta" (TInt 64);
   F "RetouchInfo" "crs:RetouchInfo" (t_xmp_StringArray);
   F "RedEyeInfo" "crs:RedEyeInfo" (t_xmp_StringArray);
   F "CropUnit" "crs:CropUnit" (TInt 64);
   F "PostCropVignetteAmount" "crs:PostCropVignetteAmount" (TInt 64);
   F "PostCropVignetteMidpoint" "crs:PostCropVignetteMidpoint" (TInt 64);
   F "PostCropVignetteFeather" "crs:PostCropVignetteFeather" (TInt 64);
   F "PostCropVignetteRoundness" "crs:PostCropVignetteRoundness" (TInt 64);
   F "PostCropVignetteStyle" "crs:PostCropVignetteStyle" (TInt 64);
   F "ProcessVersion" "crs:ProcessVersion" (TStr);
   F "LensProfileEnable" "crs:LensProfileEnable" (TInt 64);
   F "LensProfileSetup" "crs:LensProfileSetup" (TStr);
   F "LensProfileName" "crs:LensProfileName" (TStr);
   F "LensProfileFilename" "crs:LensProfileFilename" (TStr);
   F "LensProfileDigest" "crs:LensProfileDigest" (TStr);
   F "LensProfileDistortionScale" "crs:LensProfileDistortionScale" (TInt 64);
   F "LensProfileChromaticAberrationScale" "crs:LensProfileChromaticAberrationScale" (TInt 64);
   F "LensProfileVignettingScale" "crs:LensProfileVignettingScale" (TInt 64);
   F "LensManualDistortionAmount" "crs:LensManualDistortionAmount" (TInt 64);
   F "PerspectiveVertical" "crs:PerspectiveVertical" (TInt 64);
   F "PerspectiveHorizontal" "crs:PerspectiveHorizontal" (TInt 64);
   F "PerspectiveRotate" "crs:PerspectiveRotate" (TText (cdc "float32"));
   F "PerspectiveScale" "crs:PerspectiveScale" (TInt 64);
   F "CropConstrainToWarp" "crs:CropConstrainToWarp" (TInt 64);
   F "LuminanceNoiseReductionDetail" "crs:LuminanceNoiseReductionDetail" (TInt 64);
   F "LuminanceNoiseReductionContrast" "crs:LuminanceNoiseReductionContrast" (TInt 64);
   F "ColorNoiseReductionDetail" "crs:ColorNoiseReductionDetail" (TInt 64);
   F "GrainAmount" "crs:GrainAmount" (TInt 64);
   F "GrainSize" "crs:GrainSize" (TInt 64);
   F "GrainFrequency" "crs:GrainFrequency" (TInt 64);
   F "AutoLateralCA" "crs:AutoLateralCA" (TInt 64);
   F "Exposure2012" "crs:Exposure2012" (TText (cdc "float32"));
   F "Contrast2012" "crs:Contrast2012" (TInt 64);
   F "Highlights2012" "crs:Highlights2012" (TInt 64);
   F "Shadows2012" "crs:Shadows2012" (TInt 64);
   F "Whites2012" "crs:Whites2012" (TInt 64);
   F "Blacks2012" "crs:Blacks2012" (TInt 64);
   F "Clarity2012" "crs:Clarity2012" (TInt 64);
   F "PostCropVignetteHighlightContrast" "crs:PostCropVignetteHighlightContrast" (TInt 64);
   F "ToneCurveName2012" "crs:ToneCurveName2012" (t_crs_ToneCurve);
   F "ToneCurveRed" "crs:ToneCurveRed" (t_crs_PointList);
   F "ToneCurveGreen" "crs:ToneCurveGreen" (t_crs_PointList);
   F "ToneCurveBlue" "crs:ToneCurveBlue" (t_crs_PointList);
   F "ToneCurvePV2012" "crs:ToneCurvePV2012" (t_crs_PointList);
   F "ToneCurvePV2012Red" "crs:ToneCurvePV2012Red" (t_crs_PointList);
   F "ToneCurvePV2012Green" "crs:ToneCurvePV2012Green" (t_crs_PointList);
   F "ToneCurvePV2012Blue" "crs:ToneCurvePV2012Blue" (t_crs_PointList);
   F "ToneMapStrength" "crs:ToneMapStrength" (TInt 64);
   F "DefringePurpleAmount" "crs:DefringePurpleAmount" (TInt 64);
   F "DefringePurpleHueLo" "crs:DefringePurpleHueLo" (TInt 64);
   F "DefringePurpleHueHi" "crs:DefringePurpleHueHi" (TInt 64);
   F "DefringeGreenAmount" "crs:DefringeGreenAmount" (TInt 64);
   F "DefringeGreenHueLo" "crs:DefringeGreenHueLo" (TInt 64);
   F "DefringeGreenHueHi" "crs:DefringeGreenHueHi" (TInt 64);
   F "AutoWhiteVersion" "crs:AutoWhiteVersion" (TInt 64);
   F "ColorNoiseReductionSmoothness" "crs:ColorNoiseReductionSmoothness" (TInt 64);
   F "PerspectiveAspect" "crs:PerspectiveAspect" (TInt 64);
   F "PerspectiveUpright" "crs:PerspectiveUpright" (TInt 64);
   F "UprightVersion" "crs:UprightVersion" (TInt 64);
   F "UprightCenterMode" "crs:UprightCenterMode" (TInt 64);
   F "UprightCenterNormX" "crs:UprightCenterNormX" (TText (cdc "float32"));
   F "UprightCenterNormY" "crs:UprightCenterNormY" (TText (cdc "float32"));
   F "UprightFocalMode" "crs:UprightFocalMode" (TInt 64);
   F "UprightFocalLength35mm" "crs:UprightFocalLength35mm" (TText (cdc "float32"));
   F "UprightPreview" "crs:UprightPreview" (t_xmp_Bool);
   F "UprightTransformCount" "crs:UprightTransformCount" (TInt 64);
   F "UprightDependentDigest" "crs:UprightDependentDigest" (TStr);
   F "UprightTransform_0" "crs:UprightTransform_0" (TStr);
   F "UprightTransform_1" "crs:UprightTransform_1" (TStr);
   F "UprightTransform_2" "crs:UprightTransform_2" (TStr);
   F "UprightTransform_3" "crs:UprightTransform_3" (TStr);
   F "UprightTransform_4" "crs:UprightTransform_4" (TStr);
   F "LensProfileMatchKeyExifMake" "crs:LensProfileMatchKeyExifMake" (TStr);
   F "LensProfileMatchKeyExifModel" "crs:LensProfileMatchKeyExifModel" (TStr);
   F "LensProfileMatchKeyCameraModelName" "crs:LensProfileMatchKeyCameraModelName" (TStr);
   F "LensProfileMatchKeyLensInfo" "crs:LensProfileMatchKeyLensInfo" (TStr);
   F "LensProfileMatchKeyLensID" "crs:LensProfileMatchKeyLensID" (TStr);
   F "LensProfileMatchKeyLensName" "crs:LensProfileMatchKeyLensName" (TStr);
   F "LensProfileMatchKeyIsRaw" "crs:LensProfileMatchKeyIsRaw" (t_xmp_Bool);
   F "LensProfileMatchKeySensorFormatFactor" "crs:LensProfileMatchKeySensorFormatFactor" (TText (cdc "float32"));
   F "DefaultAutoTone" "crs:DefaultAutoTone" (t_xmp_Bool);
   F "DefaultAutoGray" "crs:DefaultAutoGray" (t_xmp_Bool);
   F "DefaultsSpecificToSerial" "crs:DefaultsSpecificToSerial" (t_xmp_Bool);
   F "DefaultsSpecificToISO" "crs:DefaultsSpecificToISO" (t_xmp_Bool);
   F "DNGIgnoreSidecars" "crs:DNGIgnoreSidecars" (t_xmp_Bool);
   F "NegativeCachePath" "crs:NegativeCachePath" (TStr);
   F "NegativeCacheMaximumSize" "crs:NegativeCacheMaximumSize" (TText (cdc "float32"));
   F "NegativeCacheLargePreviewSize" "crs:NegativeCacheLargePreviewSize" (TInt 64);
   F "JPEGHandling" "crs:JPEGHandling" (TStr);
   F "TIFFHandling" "crs:TIFFHandling" (TStr);
   F "GradientBasedCorrections" "crs:GradientBasedCorrections" (t_crs_CorrectionList);
   F "CircularGradientBasedCorrections" "crs:CircularGradientBasedCorrections" (t_crs_CorrectionList);
   F "PaintBasedCorrections" "crs:PaintBasedCorrections" (t_crs_CorrectionList);
   F "RetouchAreas" "crs:RetouchAreas" (t_crs_RetouchAreaList)].
Definition t_crs_CameraRawInfo : ty X := TStruct (StructInfo _ None false) (fields fs_crs_CameraRawInfo).
(* xmp/xmp_types.go:89 *)
Definition t_xmp_Date : ty X := TText (cdc "xmp.Date").
(* xmp/xmp_types.go:216. Simplified: the single text UnmarshalXMP (228-239) also takes is an error here; see LenientM. *)
Definition t_xmp_DateList : ty X := TArr (ArrInfo _ "Seq" true (None) false) (t_xmp_Date).
(* xmp/array.go:66 *)
Definition t_xmp_AltString : ty X := TAlt true.
(* models/dc/types.go:40. Simplified: the single text UnmarshalXMP (57-60) also takes is an error here; see LenientM. *)
Definition t_dc_LocaleArray : ty X := TArr (ArrInfo _ "Bag" true (None) false) (TStr).
(* models/dc/model.go:54-70. *)
Definition fs_dc_DublinCore : raw := [
   F "Contributor" "dc:contributor" (t_xmp_StringArray);
   F "Coverage" "dc:coverage" (TStr);
   F "Creator" "dc:creator" (t_xmp_StringList);
   F "Date" "dc:date" (t_xmp_DateList);
   F "Description" "dc:description" (t_xmp_AltString);
   F "Format" "dc:format" (TStr);
   F "Identifier" "dc:identifier" (TStr);
   F "Language" "dc:language" (t_dc_LocaleArray);
   F "Publisher" "dc:publisher" (t_xmp_StringArray);
   F "Relation" "dc:relation" (t_xmp_StringArray);
   F "Rights" "dc:rights" (t_xmp_AltString);
   F "Source" "dc:source" (TStr);
   F "Subject" "dc:subject" (t_xmp_StringArray);
   F "Title" "dc:title" (t_xmp_AltString);
   F "Type" "dc:type" (t_xmp_StringArray)].
Definition t_dc_DublinCore : ty X := TStruct (StructInfo _ None false) (fields fs_dc_DublinCore).
(* models/digikam/enum.go:5 *)
Definition t_digikam_ColorLabel : ty X := TStr.
(* models/digikam/enum.go:20 *)
Definition t_digikam_PickLabel : ty X := TStr.
(* models/digikam/model.go:38-47. *)
Definition fs_digikam_Digikam : raw := [
   F "TagsList" "digiKam:TagsList" (t_xmp_StringList);
   F "CaptionsAutorNames" "digiKam:CaptionsAutorNames" (t_xmp_AltString);
   F "CaptionsDateTimeStamps" "digiKam:CaptionsDateTimeStamps" (t_xmp_AltString);
   F "ImageHistory" "digiKam:ImageHistory" (TStr);
   F "ImageUniqueID" "digiKam:ImageUniqueID" (TStr);
   F "LensCorrectionSettings" "digiKam:LensCorrectionSettings" (TStr);
   F "ColorLabel" "digiKam:ColorLabel" (t_digikam_ColorLabel);
   F "PickLabel" "digiKam:PickLabel" (t_digikam_PickLabel)].
Definition t_digikam_Digikam : ty X := TStruct (StructInfo _ None false) (fields fs_digikam_Digikam).
(* models/dji/dji.go:91-104. *)
Definition fs_dji_DJI : raw := [
   F "AbsoluteAltitude" "drone-dji:AbsoluteAltitude" (TText (cdc "float32"));
   F "FlightPitchDegree" "drone-dji:FlightPitchDegree" (TText (cdc "float32"));
   F "FlightRollDegree" "drone-dji:FlightRollDegree" (TText (cdc "float32"));
   F "FlightYawDegree" "drone-dji:FlightYawDegree" (TText (cdc "float32"));
   F "GimbalPitchDegree" "drone-dji:GimbalPitchDegree" (TText (cdc "float32"));
   F "GimbalRollDegree" "drone-dji:GimbalRollDegree" (TText (cdc "float32"));
   F "GimbalYawDegree" "drone-dji:GimbalYawDegree" (TText (cdc "float32"));
   F "RelativeAltitude" "drone-dji:RelativeAltitude" (TText (cdc "float32"));
   F "SpeedX" "drone-dji:SpeedX" (TText (cdc "float32"));
   F "SpeedY" "drone-dji:SpeedY" (TText (cdc "float32"));
   F "SpeedZ" "drone-dji:SpeedZ" (TText (cdc "float32"));
   F "Model" "tiff:Model" (TStr)].
Definition t_dji_DJI : ty X := TStruct (StructInfo _ None false) (fields fs_dji_DJI).
(* xmp/array.go:315 *)
Definition t_xmp_IntList : ty X := TArr (ArrInfo _ "Seq" true (None) true) (TInt 64).
(* models/tiff/enum.go:20 *)
Definition t_tiff_CompressionType : ty X := TInt 64.
(* models/exif/types.go:63 *)
Definition t_exif_Date : ty X := TText (cdc "exif.Date").
(* models/tiff/enum.go:46 *)
Definition t_tiff_OrientationType : ty X := TInt 64.
(* models/tiff/enum.go:27 *)
Definition t_tiff_ColorModel : ty X := TInt 64.
(* models/tiff/enum.go:59 *)
Definition t_tiff_PlanarType : ty X := TInt 64.
(* xmp/xmp_types.go:504-507 *)
Definition t_xmp_Rational : ty X := TText (cdc "xmp.Rational").
(* xmp/xmp_types.go:602 *)
Definition t_xmp_RationalArray : ty X := TArr (ArrInfo _ "Seq" true (None) false) (t_xmp_Rational).
(* models/tiff/enum.go:73 *)
Definition t_tiff_ResolutionUnit : ty X := TInt 64.
(* xmp/xmp_types.go:296 *)
Definition t_xmp_AgentName : ty X := TStr.
(* models/tiff/enum.go:66 *)
Definition t_tiff_YCbCrPosition : ty X := TInt 64.
(* models/tiff/types.go:21 *)
Definition t_tiff_YCbCrSubSampling : ty X := TArr (ArrInfo _ "Seq" true (None) true) (TInt 64).
(* models/exif/enum.go:19 *)
Definition t_exif_ColorSpace : ty X := TInt 64.
(* models/exif/enum.go:26 *)
Definition t_exif_Component : ty X := TInt 64.
(* models/exif/types.go:137 *)
Definition t_exif_ComponentArray : ty X := TArr (ArrInfo _ "Seq" true (None) false) (t_exif_Component).
(* models/exif/types.go:32 *)
Definition t_exif_ByteArray : ty X := TText (cdc "exif.ByteArray").
(* models/exif/enum.go:38 *)
Definition t_exif_ExposureProgram : ty X := TInt 64.
(* models/exif/types.go:159-164. IsZero: 166-168. MarshalXMP: 206-209. *)
Definition fs_exif_OECF : raw := [
   F "Columns" "exif:Columns" (TInt 64);
   F "Rows" "exif:Rows" (TInt 64);
   F "Names" "exif:Names" (t_xmp_StringArray);
   F "Values" "exif:Values" (t_xmp_RationalArray)].
Definition t_exif_OECF_record : ty X := TStruct (StructInfo _ (Some cols_or_rows_zero) false) (fields fs_exif_OECF).
(* models/exif/types.go:159-164 Written as the record above, read by UnmarshalText. *)
Definition t_exif_OECF : ty X := special.
(* models/exif/enum.go:66 *)
Definition t_exif_MeteringMode : ty X := TInt 64.
(* models/exif/enum.go:79 *)
Definition t_exif_LightSource : ty X := TInt 64.
(* models/exif/enum.go:209 *)
Definition t_exif_FlashMode : ty X := TInt 64.
(* models/exif/enum.go:218 *)
Definition t_exif_FlashReturnMode : ty X := TInt 64.
(* models/exif/types.go:309-315. IsZero: 317-319. MarshalXMP: 337-343. *)
Definition fs_exif_Flash : raw := [
   F "Fired" "exif:Fired,attr,empty" (t_xmp_Bool);
   F "Function" "exif:Function,attr,empty" (t_xmp_Bool);
   F "Mode" "exif:Mode,attr,empty" (t_exif_FlashMode);
   F "RedEyeMode" "exif:RedEyeMode,attr,empty" (t_xmp_Bool);
   F "Return" "exif:Return,attr,empty" (t_exif_FlashReturnMode)].
Definition t_exif_Flash : ty X := TStruct (StructInfo _ (Some (all_zero fs_exif_Flash ["Mode"; "Return"; "Fired"; "Function"; "RedEyeMode"])) true) (fields fs_exif_Flash).
(* models/exif/enum.go:106 *)
Definition t_exif_SensingMode : ty X := TInt 64.
(* models/exif/enum.go:118 *)
Definition t_exif_FileSourceType : ty X := TInt 64.
(* models/exif/types.go:211-215. IsZero: 217-219. MarshalXMP: 254-260. *)
Definition fs_exif_CFAPattern : raw := [
   F "Columns" "exif:Columns" (TInt 64);
   F "Rows" "exif:Rows" (TInt 64);
   F "Values" "exif:Values" (t_exif_ByteArray)].
Definition t_exif_CFAPattern_record : ty X := TStruct (StructInfo _ (Some cols_or_rows_zero) true) (fields fs_exif_CFAPattern).
(* models/exif/types.go:211-215 Written as the record above, read by UnmarshalText. *)
Definition t_exif_CFAPattern : ty X := special.
(* models/exif/enum.go:127 *)
Definition t_exif_RenderMode : ty X := TInt 64.
(* models/exif/enum.go:134 *)
Definition t_exif_ExposureMode : ty X := TInt 64.
(* models/exif/enum.go:142 *)
Definition t_exif_WhiteBalanceMode : ty X := TInt 64.
(* models/exif/enum.go:149 *)
Definition t_exif_SceneCaptureType : ty X := TInt 64.
(* models/exif/enum.go:158 *)
Definition t_exif_GainMode : ty X := TInt 64.
(* models/exif/enum.go:168 *)
Definition t_exif_ContrastMode : ty X := TInt 64.
(* models/exif/enum.go:176 *)
Definition t_exif_SaturationMode : ty X := TInt 64.
(* models/exif/enum.go:184 *)
Definition t_exif_SharpnessMode : ty X := TInt 64.
(* models/exif/types.go:262-266. IsZero: 268-270. MarshalXMP: 301-307. *)
Definition fs_exif_DeviceSettings : raw := [
   F "Columns" "exif:Columns" (TInt 64);
   F "Rows" "exif:Rows" (TInt 64);
   F "Values" "exif:Values" (t_xmp_StringArray)].
Definition t_exif_DeviceSettings_record : ty X := TStruct (StructInfo _ (Some cols_or_rows_zero) true) (fields fs_exif_DeviceSettings).
(* models/exif/types.go:262-266 Written as the record above, read by UnmarshalText. *)
Definition t_exif_DeviceSettings : ty X := special.
(* models/exif/enum.go:192 *)
Definition t_exif_SubjectDistanceMode : ty X := TInt 64.
(* xmp/xmp_types.go:632 *)
Definition t_xmp_GPSCoord : ty X := TStr.
(* models/exif/enum.go:53 *)
Definition t_exif_SensitivityType : ty X := TInt 64.
(* models/exif/model.go:81-252. *)
Definition fs_exif_ExifInfo : raw := [
   F "Artist" "tiff:Artist,omit" (TStr);
   F "ArtistXMP" "dc:creator" (t_xmp_StringList);
   F "BitsPerSample" "tiff:BitsPerSample" (t_xmp_IntList);
   F "Compression" "tiff:Compression" (t_tiff_CompressionType);
   F "Copyright" "tiff:Copyright,omit" (TStr);
   F "CopyrightXMP" "dc:rights" (t_xmp_AltString);
   F "DateTime" "tiff:DateTime,omit" (t_exif_Date);
   F "DateTimeXMP" "xmp:ModifyDate" (t_xmp_Date);
   F "ImageDescription" "tiff:ImageDescription,omit" (TStr);
   F "ImageDescriptionXMP" "dc:description" (t_xmp_AltString);
   F "ImageLength" "tiff:ImageLength" (TInt 64);
   F "ImageWidth" "tiff:ImageWidth" (TInt 64);
   F "Make" "tiff:Make" (TStr);
   F "Model" "tiff:Model" (TStr);
   F "Orientation" "tiff:Orientation" (t_tiff_OrientationType);
   F "PhotometricInterpretation" "tiff:PhotometricInterpretation" (t_tiff_ColorModel);
   F "PlanarConfiguration" "tiff:PlanarConfiguration" (t_tiff_PlanarType);
   F "PrimaryChromaticities" "tiff:PrimaryChromaticities" (t_xmp_RationalArray);
   F "ReferenceBlackWhite" "tiff:ReferenceBlackWhite" (t_xmp_RationalArray);
   F "ResolutionUnit" "tiff:ResolutionUnit" (t_tiff_ResolutionUnit);
   F "SamplesPerPixel" "tiff:SamplesPerPixel" (TInt 64);
   F "Software" "tiff:Software,omit" (TStr);
   F "SoftwareXMP" "xmp:CreatorTool" (t_xmp_AgentName);
   F "TransferFunction" "tiff:TransferFunction" (t_xmp_IntList);
   F "WhitePoint" "tiff:WhitePoint" (t_xmp_RationalArray);
   F "XResolution" "tiff:XResolution" (t_xmp_Rational);
   F "YCbCrCoefficients" "tiff:YCbCrCoefficients" (t_xmp_RationalArray);
   F "YCbCrPositioning" "tiff:YCbCrPositioning" (t_tiff_YCbCrPosition);
   F "YCbCrSubSampling" "tiff:YCbCrSubSampling" (t_tiff_YCbCrSubSampling);
   F "YResolution" "tiff:YResolution" (t_xmp_Rational);
   F "ExifVersion" "exif:ExifVersion" (TStr);
   F "FlashpixVersion" "exif:FlashpixVersion" (TStr);
   F "ColorSpace" "exif:ColorSpace,empty" (t_exif_ColorSpace);
   F "ComponentsConfiguration" "exif:ComponentsConfiguration" (t_exif_ComponentArray);
   F "CompressedBitsPerPixel" "exif:CompressedBitsPerPixel" (t_xmp_Rational);
   F "PixelXDimension" "exif:PixelXDimension" (TInt 64);
   F "PixelYDimension" "exif:PixelYDimension" (TInt 64);
   F "MakerNote" "exif:MakerNote,omit" (t_exif_ByteArray);
   F "UserComment" "exif:UserComment" (t_xmp_StringArray);
   F "RelatedSoundFile" "exif:RelatedSoundFile" (TStr);
   F "DateTimeOriginal" "exif:DateTimeOriginal,omit" (t_exif_Date);
   F "DateTimeOriginalXMP" "photoshop:DateCreated" (t_xmp_Date);
   F "DateTimeDigitized" "-" TStr;
   F "DateTimeDigitizedXMP" "exif:DateTimeDigitized" (t_xmp_Date);
   F "SubSecTime" "exif:SubSecTime,omit" (TStr);
   F "SubSecTimeOriginal" "exif:SubSecTimeOriginal,omit" (TStr);
   F "SubSecTimeDigitized" "exif:SubSecTimeDigitized,omit" (TStr);
   F "ExposureTime" "exif:ExposureTime" (t_xmp_Rational);
   F "FNumber" "exif:FNumber" (t_xmp_Rational);
   F "ExposureProgram" "exif:ExposureProgram,empty" (t_exif_ExposureProgram);
   F "SpectralSensitivity" "exif:SpectralSensitivity" (TStr);
   F "OECF" "exif:OECF" (TPtr (t_exif_OECF));
   F "ShutterSpeedValue" "exif:ShutterSpeedValue" (t_xmp_Rational);
   F "ApertureValue" "exif:ApertureValue" (t_xmp_Rational);
   F "BrightnessValue" "exif:BrightnessValue" (t_xmp_Rational);
   F "ExposureBiasValue" "exif:ExposureBiasValue" (t_xmp_Rational);
   F "MaxApertureValue" "exif:MaxApertureValue" (t_xmp_Rational);
   F "SubjectDistance" "exif:SubjectDistance" (t_xmp_Rational);
   F "MeteringMode" "exif:MeteringMode,empty" (t_exif_MeteringMode);
   F "LightSource" "exif:LightSource,empty" (t_exif_LightSource);
   F "Flash" "exif:Flash" (t_exif_Flash);
   F "FocalLength" "exif:FocalLength" (t_xmp_Rational);
   F "SubjectArea" "exif:SubjectArea" (t_xmp_IntList);
   F "FlashEnergy" "exif:FlashEnergy" (t_xmp_Rational);
   F "SpatialFrequencyResponse" "exif:SpatialFrequencyResponse" (TPtr (t_exif_OECF));
   F "FocalPlaneXResolution" "exif:FocalPlaneXResolution" (t_xmp_Rational);
   F "FocalPlaneYResolution" "exif:FocalPlaneYResolution" (t_xmp_Rational);
   F "FocalPlaneResolutionUnit" "exif:FocalPlaneResolutionUnit,empty" (t_tiff_ResolutionUnit);
   F "SubjectLocation" "exif:SubjectLocation" (t_xmp_IntList);
   F "ExposureIndex" "exif:ExposureIndex" (t_xmp_Rational);
   F "SensingMethod" "exif:SensingMethod,empty" (t_exif_SensingMode);
   F "FileSource" "exif:FileSource,empty" (t_exif_FileSourceType);
   F "SceneType" "exif:SceneType,empty" (TInt 64);
   F "CFAPattern" "exif:CFAPattern" (TPtr (t_exif_CFAPattern));
   F "CustomRendered" "exif:CustomRendered,empty" (t_exif_RenderMode);
   F "ExposureMode" "exif:ExposureMode,empty" (t_exif_ExposureMode);
   F "WhiteBalance" "exif:WhiteBalance,empty" (t_exif_WhiteBalanceMode);
   F "DigitalZoomRatio" "exif:DigitalZoomRatio" (t_xmp_Rational);
   F "FocalLengthIn35mmFilm" "exif:FocalLengthIn35mmFilm" (TInt 64);
   F "SceneCaptureType" "exif:SceneCaptureType,empty" (t_exif_SceneCaptureType);
   F "GainControl" "exif:GainControl,empty" (t_exif_GainMode);
   F "Contrast" "exif:Contrast,empty" (t_exif_ContrastMode);
   F "Saturation" "exif:Saturation,empty" (t_exif_SaturationMode);
   F "Sharpness" "exif:Sharpness,empty" (t_exif_SharpnessMode);
   F "DeviceSettingDescription" "exif:DeviceSettingDescription" (t_exif_DeviceSettings);
   F "SubjectDistanceRange" "exif:SubjectDistanceRange,empty" (t_exif_SubjectDistanceMode);
   F "ImageUniqueID" "exif:ImageUniqueID" (TStr);
   F "GPSVersionID" "exif:GPSVersionID" (TStr);
   F "GPSLatitudeRef" "-" TStr;
   F "GPSLatitude" "-" TStr;
   F "GPSLatitudeCoord" "exif:GPSLatitude" (t_xmp_GPSCoord);
   F "GPSLongitudeRef" "-" TStr;
   F "GPSLongitude" "-" TStr;
   F "GPSLongitudeCoord" "exif:GPSLongitude" (t_xmp_GPSCoord);
   F "GPSAltitudeRef" "exif:GPSAltitudeRef" (TStr);
   F "GPSAltitude" "exif:GPSAltitude" (t_xmp_Rational);
   F "GPSTimeStamp" "-" TStr;
   F "GPSDateStamp" "-" TStr;
   F "GPSTimeStampXMP" "exif:GPSTimeStamp" (t_xmp_Date);
   F "GPSSatellites" "exif:GPSSatellites" (TStr);
   F "GPSStatus" "exif:GPSStatus" (TStr);
   F "GPSMeasureMode" "exif:GPSMeasureMode" (TStr);
   F "GPSDOP" "exif:GPSDOP" (t_xmp_Rational);
   F "GPSSpeedRef" "exif:GPSSpeedRef" (TStr);
   F "GPSSpeed" "exif:GPSSpeed" (t_xmp_Rational);
   F "GPSTrackRef" "exif:GPSTrackRef" (TStr);
   F "GPSTrack" "exif:GPSTrack" (t_xmp_Rational);
   F "GPSImgDirectionRef" "exif:GPSImgDirectionRef" (TStr);
   F "GPSImgDirection" "exif:GPSImgDirection" (t_xmp_Rational);
   F "GPSMapDatum" "exif:GPSMapDatum" (TStr);
   F "GPSDestLatitudeRef" "-" TStr;
   F "GPSDestLatitude" "-" TStr;
   F "GPSDestLatitudeCoord" "exif:GPSDestLatitude" (t_xmp_GPSCoord);
   F "GPSDestLongitudeRef" "-" TStr;
   F "GPSDestLongitude" "-" TStr;
   F "GPSDestLongitudeCoord" "exif:GPSDestLongitude" (t_xmp_GPSCoord);
   F "GPSDestBearingRef" "exif:GPSDestBearingRef" (TStr);
   F "GPSDestBearing" "exif:GPSDestBearing" (t_xmp_Rational);
   F "GPSDestDistanceRef" "exif:GPSDestDistanceRef" (TStr);
   F "GPSDestDistance" "exif:GPSDestDistance" (t_xmp_Rational);
   F "GPSProcessingMethod" "exif:GPSProcessingMethod" (TStr);
   F "GPSAreaInformation" "exif:GPSAreaInformation" (TStr);
   F "GPSDifferential" "exif:GPSDifferential" (TInt 64);
   F "GPSHPositioningError" "exif:GPSHPositioningError" (t_xmp_Rational);
   F "NativeDigest" "exif:NativeDigest,omit" (TStr);
   F "ISOSpeedRatings" "exif:ISOSpeedRatings,omit" (t_xmp_IntList);
   F "ExRelatedImageFileFormat" "exif:RelatedImageFileFormat" (TStr);
   F "ExRelatedImageWidth" "exif:RelatedImageWidth" (TInt 64);
   F "ExRelatedImageLength" "exif:RelatedImageLength" (TInt 64);
   F "ExPhotographicSensitivity" "exif:PhotographicSensitivity" (TInt 64);
   F "ExSensitivityType" "exif:SensitivityType" (t_exif_SensitivityType);
   F "ExStandardOutputSensitivity" "exif:StandardOutputSensitivity" (TInt 64);
   F "ExRecommendedExposureIndex" "exif:RecommendedExposureIndex" (TInt 64);
   F "ExISOSpeed" "exif:ISOSpeed" (TInt 64);
   F "ExISOSpeedLatitudeyyy" "exif:ISOSpeedLatitudeyyy" (TInt 64);
   F "ExISOSpeedLatitudezzz" "exif:ISOSpeedLatitudezzz" (TInt 64);
   F "ExCameraOwnerName" "exif:CameraOwnerName" (TStr);
   F "ExBodySerialNumber" "exif:BodySerialNumber" (TStr);
   F "ExLensSpecification" "exif:LensSpecification" (t_xmp_RationalArray);
   F "ExLensMake" "exif:LensMake" (TStr);
   F "ExLensModel" "exif:LensModel" (TStr);
   F "ExLensSerialNumber" "exif:LensSerialNumber" (TStr);
   F "ExGamma" "exif:Gamma" (t_xmp_Rational);
   F "AuxApproximateFocusDistance" "exif:ApproximateFocusDistance" (t_xmp_Rational);
   F "AuxDistortionCorrectionAlreadyApplied" "exif:DistortionCorrectionAlreadyApplied" (t_xmp_Bool);
   F "AuxSerialNumber" "exif:SerialNumber" (TStr);
   F "AuxLensInfo" "exif:LensInfo" (TStr);
   F "AuxLensDistortInfo" "exif:LensDistortInfo" (TStr);
   F "AuxLens" "exif:Lens" (TStr);
   F "AuxLensID" "exif:LensID" (TStr);
   F "AuxImageNumber" "exif:ImageNumber" (TInt 64);
   F "AuxIsMergedHDR" "exif:IsMergedHDR" (t_xmp_Bool);
   F "AuxIsMergedPanorama" "exif:IsMergedPanorama" (t_xmp_Bool);
   F "AuxLateralChromaticAberrationCorrectionAlreadyApplied" "exif:LateralChromaticAberrationCorrectionAlreadyApplied" (t_xmp_Bool);
   F "AuxVignetteCorrectionAlreadyApplied" "exif:VignetteCorrectionAlreadyApplied" (t_xmp_Bool);
   F "AuxFlashCompensation" "exif:FlashCompensation" (t_xmp_Rational);
   F "AuxFirmware" "exif:Firmware" (TStr);
   F "AuxOwnerName" "exif:OwnerName" (TStr)].
Definition t_exif_ExifInfo : ty X := TStruct (StructInfo _ None false) (fields fs_exif_ExifInfo).
(* models/exif/enum.go:201 *)
Definition t_exif_InteropMode : ty X := TStr.
(* models/exif/model.go:417-437. *)
Definition fs_exif_ExifEXInfo : raw := [
   F "InteroperabilityIndex" "exifEX:InteroperabilityIndex" (t_exif_InteropMode);
   F "InteroperabilityVersion" "exifEX:InteroperabilityVersion" (TStr);
   F "RelatedImageFileFormat" "exifEX:RelatedImageFileFormat" (TStr);
   F "RelatedImageWidth" "exifEX:RelatedImageWidth" (TInt 64);
   F "RelatedImageLength" "exifEX:RelatedImageLength" (TInt 64);
   F "PhotographicSensitivity" "exifEX:PhotographicSensitivity" (TInt 64);
   F "SensitivityType" "exifEX:SensitivityType" (t_exif_SensitivityType);
   F "StandardOutputSensitivity" "exifEX:StandardOutputSensitivity" (TInt 64);
   F "RecommendedExposureIndex" "exifEX:RecommendedExposureIndex" (TInt 64);
   F "ISOSpeed" "exifEX:ISOSpeed" (TInt 64);
   F "ISOSpeedLatitudeyyy" "exifEX:ISOSpeedLatitudeyyy" (TInt 64);
   F "ISOSpeedLatitudezzz" "exifEX:ISOSpeedLatitudezzz" (TInt 64);
   F "CameraOwnerName" "exifEX:CameraOwnerName" (TStr);
   F "BodySerialNumber" "exifEX:BodySerialNumber" (TStr);
   F "LensSpecification" "exifEX:LensSpecification" (t_xmp_RationalArray);
   F "LensMake" "exifEX:LensMake" (TStr);
   F "LensModel" "exifEX:LensModel" (TStr);
   F "LensSerialNumber" "exifEX:LensSerialNumber" (TStr);
   F "Gamma" "exifEX:Gamma" (t_xmp_Rational)].
Definition t_exif_ExifEXInfo : ty X := TStruct (StructInfo _ None false) (fields fs_exif_ExifEXInfo).
(* models/exif/model.go:487-504. *)
Definition fs_exif_ExifAuxInfo : raw := [
   F "ApproximateFocusDistance" "aux:ApproximateFocusDistance" (t_xmp_Rational);
   F "DistortionCorrectionAlreadyApplied" "aux:DistortionCorrectionAlreadyApplied" (t_xmp_Bool);
   F "SerialNumber" "aux:SerialNumber" (TStr);
   F "LensInfo" "aux:LensInfo" (TStr);
   F "LensDistortInfo" "aux:LensDistortInfo" (TStr);
   F "Lens" "aux:Lens" (TStr);
   F "LensID" "aux:LensID" (TStr);
   F "LensSerialNumber" "aux:LensSerialNumber" (TStr);
   F "ImageNumber" "aux:ImageNumber" (TInt 64);
   F "IsMergedHDR" "aux:IsMergedHDR" (t_xmp_Bool);
   F "IsMergedPanorama" "aux:IsMergedPanorama" (t_xmp_Bool);
   F "LateralChromaticAberrationCorrectionAlreadyApplied" "aux:LateralChromaticAberrationCorrectionAlreadyApplied" (t_xmp_Bool);
   F "VignetteCorrectionAlreadyApplied" "aux:VignetteCorrectionAlreadyApplied" (t_xmp_Bool);
   F "FlashCompensation" "aux:FlashCompensation" (t_xmp_Rational);
   F "Firmware" "aux:Firmware" (TStr);
   F "OwnerName" "aux:OwnerName" (TStr)].
Definition t_exif_ExifAuxInfo : ty X := TStruct (StructInfo _ None false) (fields fs_exif_ExifAuxInfo).
(* models/id3/types.go:532-537. *)
Definition fs_id3_AudioEncryption : raw := [
   F "Owner" "id3:owner,attr" (TStr);
   F "PreviewStart" "id3:previewStart,attr" (TInt 64);
   F "PreviewLength" "id3:previewLength,attr" (TInt 64);
   F "EncryptionInfo" "id3:encryptionInfo" (TBytes)].
Definition t_id3_AudioEncryption_record : ty X := TStruct (StructInfo _ None false) (fields fs_id3_AudioEncryption).
(* models/id3/types.go:532-537 Written as the record above, read by UnmarshalText. *)
Definition t_id3_AudioEncryption : ty X := special.
(* models/id3/enum.go:492 *)
Definition t_id3_PictureType : ty X := TUint 8.
(* models/id3/types.go:436-441. *)
Definition fs_id3_AttachedPicture : raw := [
   F "Mimetype" "id3:mimetype,attr" (TStr);
   F "Type" "id3:pictureType,attr" (t_id3_PictureType);
   F "Description" "id3:description,attr" (TStr);
   F "Data" "id3:image" (TBytes)].
Definition t_id3_AttachedPicture : ty X := TStruct (StructInfo _ None false) (fields fs_id3_AttachedPicture).
(* models/id3/types.go:443 Its UnmarshalText is for native tags. *)
Definition t_id3_AttachedPictureArray : ty X := TArr (ArrInfo _ "Bag" true (None) false) (t_id3_AttachedPicture).
(* models/id3/types.go:723-729. *)
Definition fs_id3_AudioSeekIndex : raw := [
   F "Start" "id3:start,attr" (TInt 64);
   F "Length" "id3:length,attr" (TInt 64);
   F "NumberOfPoints" "id3:numberOfPoints,attr" (TInt 64);
   F "BitsPerPoint" "id3:bitsPerPoint,attr" (TUint 8);
   F "Points" "id3:points" (t_xmp_IntList)].
Definition t_id3_AudioSeekIndex_record : ty X := TStruct (StructInfo _ None false) (fields fs_id3_AudioSeekIndex).
(* models/id3/types.go:723-729 Written as the record above, read by UnmarshalText. *)
Definition t_id3_AudioSeekIndex : ty X := special.
(* models/id3/types.go:596-599. *)
Definition fs_id3_Price : raw := [
   F "Currency" "" (TStr);
   F "Amount" "" (TText (cdc "float32"))].
Definition t_id3_Price : ty X := TStruct (StructInfo _ None false) (fields fs_id3_Price).
(* models/id3/types.go:601 *)
Definition t_id3_PriceList : ty X := TArr (ArrInfo _ "Bag" true (None) false) (t_id3_Price).
(* models/id3/types.go:79 *)
Definition t_id3_Date23 : ty X := TText (cdc "id3.Date23").
(* xmp/xmp_types.go:382 *)
Definition t_xmp_Url : ty X := TStr.
(* models/id3/enum.go:518 *)
Definition t_id3_DeliveryMethod : ty X := TUint 8.
(* models/id3/types.go:580-589. *)
Definition fs_id3_Commercial : raw := [
   F "Prices" "id3:prices" (t_id3_PriceList);
   F "ValidUntil" "id3:validUntil,attr" (t_id3_Date23);
   F "ContactUrl" "id3:contactUrl" (t_xmp_Url);
   F "ReceivedAs" "id3:receivedAs,attr" (t_id3_DeliveryMethod);
   F "SellerName" "id3:sellerName,attr" (TStr);
   F "Description" "id3:description,attr" (TStr);
   F "LogoMimetype" "id3:logoMimetype,attr" (TStr);
   F "LogoImage" "id3:logoImage" (TBytes)].
Definition t_id3_Commercial_record : ty X := TStruct (StructInfo _ None false) (fields fs_id3_Commercial).
(* models/id3/types.go:580-589 Written as the record above, read by UnmarshalText. *)
Definition t_id3_Commercial : ty X := special.
(* models/id3/types.go:617-621. *)
Definition fs_id3_EncryptionMethod : raw := [
   F "OwnerUrl" "id3:ownerUrl,attr" (t_xmp_Url);
   F "Method" "id3:method,attr" (TUint 8);
   F "Data" "id3:data" (TBytes)].
Definition t_id3_EncryptionMethod : ty X := TStruct (StructInfo _ None false) (fields fs_id3_EncryptionMethod).
(* models/id3/types.go:623 Its UnmarshalText is for native tags. *)
Definition t_id3_EncryptionMethodArray : ty X := TArr (ArrInfo _ "Bag" true (None) false) (t_id3_EncryptionMethod).
(* models/id3/enum.go:482 *)
Definition t_id3_EqualizationMethod : ty X := TUint 8.
(* models/id3/types.go:396-399. *)
Definition fs_id3_AdjustmentPoint : raw := [
   F "Frequency" "id3:frequency,attr" (TInt 64);
   F "Adjustment" "id3:adjust,attr" (TText (cdc "float32"))].
Definition t_id3_AdjustmentPoint : ty X := TStruct (StructInfo _ None false) (fields fs_id3_AdjustmentPoint).
(* models/id3/types.go:401 *)
Definition t_id3_AdjustmentPointList : ty X := TArr (ArrInfo _ "Seq" true (None) false) (t_id3_AdjustmentPoint).
(* models/id3/types.go:371-375. *)
Definition fs_id3_Equalization : raw := [
   F "Method" "id3:method,attr" (t_id3_EqualizationMethod);
   F "Identification" "id3:id,attr" (TStr);
   F "Adjustments" "id3:points" (t_id3_AdjustmentPointList)].
Definition t_id3_Equalization : ty X := TStruct (StructInfo _ None false) (fields fs_id3_Equalization).
(* models/id3/types.go:377 Its UnmarshalText is for native tags. *)
Definition t_id3_EqualizationList : ty X := TArr (ArrInfo _ "Bag" true (None) false) (t_id3_Equalization).
(* models/id3/enum.go:17 *)
Definition t_id3_MarkerType : ty X := TUint 8.
(* models/id3/enum.go:47 *)
Definition t_id3_UnitType : ty X := TUint 8.
(* models/id3/types.go:231-235. *)
Definition fs_id3_Marker : raw := [
   F "MarkerType" "id3:type,attr" (t_id3_MarkerType);
   F "Timestamp" "id3:timestamp,attr" (TInt 64);
   F "Unit" "id3:unit,attr" (t_id3_UnitType)].
Definition t_id3_Marker : ty X := TStruct (StructInfo _ None false) (fields fs_id3_Marker).
(* models/id3/types.go:237 Its UnmarshalText is for native tags. *)
Definition t_id3_MarkerList : ty X := TArr (ArrInfo _ "Seq" true (None) false) (t_id3_Marker).
(* models/id3/types.go:464-469. *)
Definition fs_id3_EncapsulatedObject : raw := [
   F "Mimetype" "id3:mimetype,attr" (TStr);
   F "Filename" "id3:filename,attr" (TStr);
   F "Description" "id3:description,attr" (TStr);
   F "Data" "id3:data" (TBytes)].
Definition t_id3_EncapsulatedObject : ty X := TStruct (StructInfo _ None false) (fields fs_id3_EncapsulatedObject).
(* models/id3/types.go:471 Its UnmarshalText is for native tags. *)
Definition t_id3_EncapsulatedObjectArray : ty X := TArr (ArrInfo _ "Bag" true (None) false) (t_id3_EncapsulatedObject).
(* models/id3/types.go:644-648. *)
Definition fs_id3_Group : raw := [
   F "OwnerUrl" "id3:ownerUrl,attr" (t_xmp_Url);
   F "Symbol" "id3:symbol,attr" (TUint 8);
   F "Data" "id3:data" (TBytes)].
Definition t_id3_Group : ty X := TStruct (StructInfo _ None false) (fields fs_id3_Group).
(* models/id3/types.go:650 Its UnmarshalText is for native tags. *)
Definition t_id3_GroupArray : ty X := TArr (ArrInfo _ "Bag" true (None) false) (t_id3_Group).
(* models/id3/types.go:546-550. *)
Definition fs_id3_Link : raw := [
   F "LinkedID" "id3:linkedId,attr" (TStr);
   F "Url" "id3:url,attr" (TStr);
   F "Extra" "id3:extra" (t_xmp_StringList)].
Definition t_id3_Link : ty X := TStruct (StructInfo _ None false) (fields fs_id3_Link).
(* models/id3/types.go:552 Its UnmarshalText is for native tags. *)
Definition t_id3_LinkArray : ty X := TArr (ArrInfo _ "Bag" true (None) false) (t_id3_Link).
(* models/id3/types.go:218-223. *)
Definition fs_id3_Owner : raw := [
   F "Currency" "id3:currency" (TStr);
   F "Price" "id3:price" (TText (cdc "float32"));
   F "PurchaseDate" "id3:purchaseDate" (t_xmp_Date);
   F "Seller" "id3:seller" (TStr)].
Definition t_id3_Owner_record : ty X := TStruct (StructInfo _ None false) (fields fs_id3_Owner).
(* models/id3/types.go:218-223 Written as the record above, read by UnmarshalText. *)
Definition t_id3_Owner : ty X := special.
(* models/id3/types.go:671-674. *)
Definition fs_id3_PrivateData : raw := [
   F "Owner" "id3:owner,attr" (TStr);
   F "Data" "id3:data" (TBytes)].
Definition t_id3_PrivateData : ty X := TStruct (StructInfo _ None false) (fields fs_id3_PrivateData).
(* models/id3/types.go:676 Its UnmarshalText is for native tags. *)
Definition t_id3_PrivateDataArray : ty X := TArr (ArrInfo _ "Bag" true (None) false) (t_id3_PrivateData).
(* models/id3/types.go:492-496. *)
Definition fs_id3_Popularimeter : raw := [
   F "Email" "id3:email,attr" (TStr);
   F "Rating" "id3:rating,attr" (TUint 8);
   F "Counter" "id3:counter,attr" (TInt 64)].
Definition t_id3_Popularimeter : ty X := TStruct (StructInfo _ None false) (fields fs_id3_Popularimeter).
(* models/id3/types.go:498 Its UnmarshalText is for native tags. *)
Definition t_id3_PopularimeterArray : ty X := TArr (ArrInfo _ "Bag" true (None) false) (t_id3_Popularimeter).
(* models/id3/enum.go:54 *)
Definition t_id3_PositionType : ty X := TUint 8.
(* models/id3/types.go:573-576. *)
Definition fs_id3_PositionSync : raw := [
   F "Unit" "id3:unit,attr" (t_id3_PositionType);
   F "Position" "id3:position,attr" (TInt 64)].
Definition t_id3_PositionSync : ty X := TStruct (StructInfo _ None false) (fields fs_id3_PositionSync).
(* models/id3/types.go:519-523. *)
Definition fs_id3_BufferSize : raw := [
   F "BufferSize" "id3:bufferSize,attr" (TInt 64);
   F "Flag" "id3:flag,attr" (TUint 8);
   F "NextOffset" "id3:next,attr" (TInt 64)].
Definition t_id3_BufferSize_record : ty X := TStruct (StructInfo _ None false) (fields fs_id3_BufferSize).
(* models/id3/types.go:519-523 Written as the record above, read by UnmarshalText. *)
Definition t_id3_BufferSize : ty X := special.
(* models/id3/enum.go:468 *)
Definition t_id3_ChannelType : ty X := TUint 8.
(* models/id3/types.go:343-348. *)
Definition fs_id3_VolumeAdjust : raw := [
   F "Channel" "id3:channel,attr" (t_id3_ChannelType);
   F "Adjustment" "id3:adjust,attr" (TText (cdc "float32"));
   F "Bits" "id3:bits,attr" (TUint 8);
   F "PeakVolume" "id3:peak,attr" (TText (cdc "float32"))].
Definition t_id3_VolumeAdjust : ty X := TStruct (StructInfo _ None false) (fields fs_id3_VolumeAdjust).
(* models/id3/types.go:350 Its UnmarshalText is for native tags. *)
Definition t_id3_VolumeAdjustArray : ty X := TArr (ArrInfo _ "Bag" true (None) false) (t_id3_VolumeAdjust).
(* models/id3/types.go:416-427. *)
Definition fs_id3_Reverb : raw := [
   F "ReverbLeftMs" "id3:reverbLeftMs" (TInt 64);
   F "ReverbRightMs" "id3:reverbRightMs" (TInt 64);
   F "ReverbBouncesLeft" "id3:reverbBouncesLeft" (TUint 8);
   F "ReverbBouncesRight" "id3:reverbBouncesRight" (TUint 8);
   F "ReverbFeedbackLtoL" "id3:reverbFeedbackLtoL" (TUint 8);
   F "ReverbFeedbackLToR" "id3:reverbFeedbackLToR" (TUint 8);
   F "ReverbFeedbackRtoR" "id3:reverbFeedbackRtoR" (TUint 8);
   F "ReverbFeedbackRtoL" "id3:reverbFeedbackRtoL" (TUint 8);
   F "PremixLtoR" "id3:premixLtoR" (TUint 8);
   F "PremixRtoL" "id3:premixRtoL" (TUint 8)].
Definition t_id3_Reverb_record : ty X := TStruct (StructInfo _ None false) (fields fs_id3_Reverb).
(* models/id3/types.go:416-427 Written as the record above, read by UnmarshalText. *)
Definition t_id3_Reverb : ty X := special.
(* models/id3/types.go:697-700. *)
Definition fs_id3_Signature : raw := [
   F "GroupSymbol" "id3:groupSymbol,attr" (TUint 8);
   F "Signature" "id3:signature" (TBytes)].
Definition t_id3_Signature : ty X := TStruct (StructInfo _ None false) (fields fs_id3_Signature).
(* models/id3/types.go:702 Its UnmarshalText is for native tags. *)
Definition t_id3_SignatureArray : ty X := TArr (ArrInfo _ "Bag" true (None) false) (t_id3_Signature).
(* models/id3/enum.go:454 *)
Definition t_id3_LyricsType : ty X := TUint 8.
(* models/id3/types.go:292-295. *)
Definition fs_id3_TimedText : raw := [
   F "Text" "id3:text,attr" (TStr);
   F "Timestamp" "id3:timestamp,attr" (TInt 64)].
Definition t_id3_TimedText : ty X := TStruct (StructInfo _ None false) (fields fs_id3_TimedText).
(* models/id3/types.go:297 *)
Definition t_id3_TimedTextList : ty X := TArr (ArrInfo _ "Seq" true (None) false) (t_id3_TimedText).
(* models/id3/types.go:258-263. *)
Definition fs_id3_TimedLyrics : raw := [
   F "Lang" "id3:lang,attr" (TStr);
   F "Type" "id3:type,attr" (t_id3_LyricsType);
   F "Unit" "id3:unit,attr" (t_id3_PositionType);
   F "Lyrics" "id3:lyrics,attr" (t_id3_TimedTextList)].
Definition t_id3_TimedLyrics : ty X := TStruct (StructInfo _ None false) (fields fs_id3_TimedLyrics).
(* models/id3/types.go:265 Its UnmarshalText is for native tags. *)
Definition t_id3_TimedLyricsArray : ty X := TArr (ArrInfo _ "Bag" true (None) false) (t_id3_TimedLyrics).
(* models/id3/types.go:144 *)
Definition t_id3_Genre : ty X := TArr (ArrInfo _ "Seq" false (Some (cdc "id3.Genre")) false) (TStr).
(* models/id3/types.go:52 *)
Definition t_id3_Time23 : ty X := TText (cdc "id3.Time23").
(* models/id3/types.go:177-180 *)
Definition t_id3_TrackNum : ty X := TText (cdc "id3.TrackNum").
(* models/xmp_dm/types.go:258-261. IsZero: 263-265. *)
Definition fs_xmpdm_CuePointParam : raw := [
   F "Key" "xmpDM:key,attr" (TStr);
   F "Value" "xmpDM:value,attr" (TStr)].
Definition t_xmpdm_CuePointParam : ty X := TStruct (StructInfo _ (Some (all_zero fs_xmpdm_CuePointParam ["Value"; "Key"])) false) (fields fs_xmpdm_CuePointParam).
(* models/xmp_dm/types.go:267 *)
Definition t_xmpdm_CuePointParamArray : ty X := TArr (ArrInfo _ "Seq" true (None) false) (t_xmpdm_CuePointParam).
(* models/xmp_dm/types.go:181-184 *)
Definition t_xmpdm_FrameCount : ty X := TText (cdc "xmpdm.FrameCount").
(* models/xmp_dm/enum.go:251 *)
Definition t_xmpdm_MarkerType : ty X := TStr.
(* models/xmp_dm/types.go:433 *)
Definition t_xmpdm_MarkerTypeList : ty X := TArr (ArrInfo _ "Seq" false (None) false) (t_xmpdm_MarkerType).
(* models/id3/types.go:738. *)
Definition fs_id3_Chapter : raw := [
   F "Comment" "xmpDM:comment,attr" (TStr);
   F "CuePointParams" "xmpDM:cuePointParams" (t_xmpdm_CuePointParamArray);
   F "CuePointType" "xmpDM:cuePointType,attr" (TStr);
   F "Duration" "xmpDM:duration,attr" (t_xmpdm_FrameCount);
   F "Location" "xmpDM:location" (t_xmp_Uri);
   F "Name" "xmpDM:name,attr" (TStr);
   F "Probability" "xmpDM:probability,attr" (TText (cdc "float64"));
   F "Speaker" "xmpDM:speaker,attr" (TStr);
   F "StartTime" "xmpDM:startTime,attr" (t_xmpdm_FrameCount);
   F "Target" "xmpDM:target,attr" (TStr);
   F "Types" "xmpDM:type" (t_xmpdm_MarkerTypeList)].
Definition t_id3_Chapter : ty X := TStruct (StructInfo _ None false) (fields fs_id3_Chapter).
(* models/id3/types.go:740 Its UnmarshalText is for native tags. *)
Definition t_id3_ChapterList : ty X := TArr (ArrInfo _ "Seq" true (None) false) (t_id3_Chapter).
(* models/id3/types.go:761-765. *)
Definition fs_id3_TocEntry : raw := [
   F "Flags" "id3:flags" (TInt 64);
   F "IDList" "id3:idlist" (t_xmp_StringList);
   F "Info" "id3:info" (TStr)].
Definition t_id3_TocEntry : ty X := TStruct (StructInfo _ None false) (fields fs_id3_TocEntry).
(* models/id3/types.go:767 Its UnmarshalText is for native tags. *)
Definition t_id3_TocEntryList : ty X := TArr (ArrInfo _ "Seq" true (None) false) (t_id3_TocEntry).
(* models/id3/types.go:41 *)
Definition t_id3_Bool : ty X := TInt 64.
(* xmp/native.go:25-29 Has reading and writing methods of its own, which are not described. *)
Definition t_xmp_Tag : ty X := special.
(* xmp/native.go:31 Its methods are in NativeM.v; here it can only be empty. *)
Definition t_xmp_TagList : ty X := TArr (ArrInfo _ "Seq" false (None) false) (t_xmp_Tag).
(* models/id3/model.go:226-333. *)
Definition fs_id3_ID3 : raw := [
   F "AudioEncryption" "id3:audioEncryption" (TPtr (t_id3_AudioEncryption));
   F "AttachedPicture" "id3:attachedPicture" (t_id3_AttachedPictureArray);
   F "AudioSeekPointIndex" "id3:audioSeekPointIndex,v2.4+" (TPtr (t_id3_AudioSeekIndex));
   F "Comments" "id3:comments" (TStr);
   F "Commercial" "id3:commercial" (TPtr (t_id3_Commercial));
   F "Encryption" "id3:encryption" (t_id3_EncryptionMethodArray);
   F "Equalization_v23" "id3:equalization_v23,v2.3-" (TStr);
   F "Equalization" "id3:equalization,v2.4+" (t_id3_EqualizationList);
   F "EventTimingCodes" "id3:eventTimingCodes" (t_id3_MarkerList);
   F "GeneralEncapsulatedObject" "id3:generalEncapsulatedObject" (t_id3_EncapsulatedObjectArray);
   F "GroupIdentifier" "id3:groupIdentifier" (t_id3_GroupArray);
   F "InvolvedPeopleList_v23" "id3:involvedPeopleList_v23,v2.3-" (TStr);
   F "Link" "id3:link" (t_id3_LinkArray);
   F "MusicCDIdentifier" "id3:musicCDIdentifier" (TBytes);
   F "MPEGLocationLookupTable" "id3:mpegLocationLookupTable" (TBytes);
   F "Ownership" "id3:ownership" (TPtr (t_id3_Owner));
   F "Private" "id3:private" (t_id3_PrivateDataArray);
   F "PlayCounter" "id3:playCounter" (TInt 64);
   F "Popularimeter" "id3:popularimeter" (t_id3_PopularimeterArray);
   F "PositionSynchronization" "id3:positionSynchronization" (TPtr (t_id3_PositionSync));
   F "RecommendedBufferSize" "id3:recommendedBufferSize" (TPtr (t_id3_BufferSize));
   F "RelativeVolumeAdjustment_v23" "id3:relativeVolumeAdjustment_v23,v2.3-" (TStr);
   F "RelativeVolumeAdjustment" "id3:relativeVolumeAdjustment,v2.4+" (t_id3_VolumeAdjustArray);
   F "Reverb" "id3:reverb" (TPtr (t_id3_Reverb));
   F "Seek" "id3:seek,v2.4+" (TInt 64);
   F "Signature" "id3:signature,v2.4+" (t_id3_SignatureArray);
   F "SynchronizedLyrics" "id3:synchronizedLyrics" (t_id3_TimedLyricsArray);
   F "SynchronizedTempoCodes" "id3:synchronizedTempoCodes" (TBytes);
   F "AlbumTitle" "id3:albumTitle" (TStr);
   F "BeatsPerMinute" "id3:beatsPerMinute" (TInt 64);
   F "Composer" "id3:composer" (TStr);
   F "ContentType" "id3:contentType" (t_id3_Genre);
   F "Copyright" "id3:copyright" (TStr);
   F "Date_v23" "id3:date_v23,v2.3-" (t_id3_Date23);
   F "EncodingTime" "id3:encodingTime,v2.4+" (t_xmp_Date);
   F "PlaylistDelay" "id3:playlistDelay" (TInt 64);
   F "OriginalReleaseTime" "id3:originalReleaseTime,v2.4+" (t_xmp_Date);
   F "RecordingTime" "id3:recordingTime,v2.4+" (t_xmp_Date);
   F "ReleaseTime" "id3:releaseTime,v2.4+" (t_xmp_Date);
   F "TaggingTime" "id3:taggingTime,v2.4+" (t_xmp_Date);
   F "EncodedBy" "id3:encodedBy" (TStr);
   F "Lyricist" "id3:lyricist" (TStr);
   F "FileType" "id3:fileType" (TStr);
   F "Time_v23" "id3:time_v23,v2.3-" (t_id3_Time23);
   F "InvolvedPeopleList" "id3:involvedPeopleList,v2.4+" (TStr);
   F "ContentGroupDescription" "id3:contentGroupDescription" (TStr);
   F "TitleDescription" "id3:titleDescription" (TStr);
   F "SubTitle" "id3:subTitle" (TStr);
   F "InitialKey" "id3:initialKey" (TStr);
   F "Language" "id3:language" (TStr);
   F "Length" "id3:length" (TStr);
   F "MusicianCreditsList" "id3:musicianCreditsList,v2.4+" (TStr);
   F "MediaType" "id3:mediaType" (TStr);
   F "Mood" "id3:mood,v2.4+" (TStr);
   F "OriginalAlbumTitle" "id3:originalAlbumTitle" (TStr);
   F "OriginalFilename" "id3:originalFilename" (TStr);
   F "OriginalLyricist" "id3:originalLyricist" (TStr);
   F "OriginalArtist" "id3:originalArtist" (TStr);
   F "OriginalReleaseYear_v23" "id3:originalReleaseYear_v23,v2.3-" (TInt 64);
   F "FileOwner" "id3:fileOwner" (TStr);
   F "LeadPerformer" "id3:leadPerformer" (TStr);
   F "Band" "id3:band" (TStr);
   F "Conductor" "id3:conductor" (TStr);
   F "ModifiedBy" "id3:modifiedBy" (TStr);
   F "PartOfASet" "id3:partOfASet" (t_id3_TrackNum);
   F "ProducedNotice" "id3:producedNotice,v2.4+" (TStr);
   F "Publisher" "id3:publisher" (TStr);
   F "TrackNumber" "id3:trackNumber" (t_id3_TrackNum);
   F "RecordingDates" "id3:recordingDates" (TStr);
   F "InternetRadioStationName" "id3:internetRadioStationName" (TStr);
   F "InternetRadioStationOwner" "id3:internetRadioStationOwner" (TStr);
   F "Size_v23" "id3:size_v23,v2.3-" (TStr);
   F "AlbumSortOrder" "id3:albumSortOrder,v2.4+" (TStr);
   F "PerformerSortOrder" "id3:performerSortOrder,v2.4+" (TStr);
   F "TitleSortOrder" "id3:titleSortOrder,v2.4+" (TStr);
   F "InternationalStandardRecordingCode" "id3:internationalStandardRecordingCode" (TStr);
   F "EncodedWith" "id3:encodedWith" (TStr);
   F "SetSubtitle" "id3:setSubtitle,v2.4+" (TStr);
   F "Year_v23" "id3:year_v23,v2.3-" (TInt 64);
   F "UserText" "id3:userText" (TStr);
   F "UniqueFileIdentifier" "id3:uniqueFileIdentifier" (t_xmp_Uri);
   F "TermsOfUse" "id3:termsOfUse" (t_xmp_StringList);
   F "UnsynchronizedLyrics" "id3:unsynchronizedLyrics" (t_xmp_StringList);
   F "CommercialInformation" "id3:commercialInformation" (t_xmp_Url);
   F "CopyrightInformation" "id3:copyrightInformation" (t_xmp_Url);
   F "OfficialAudioFileWebpage" "id3:officialAudioFileWebpage" (t_xmp_Url);
   F "OfficialArtistWebpage" "id3:officialArtistWebpage" (t_xmp_Url);
   F "OfficialAudioSourceWebpage" "id3:officialAudioSourceWebpage" (t_xmp_Url);
   F "OfficialInternetRadioStationHomepage" "id3:officialInternetRadioStationHomepage" (t_xmp_Url);
   F "Payment" "id3:payment" (t_xmp_Url);
   F "OfficialPublisherWebpage" "id3:officialPublisherWebpage" (t_xmp_Url);
   F "UserURL" "id3:userURL" (t_xmp_Url);
   F "AccessibilityText" "id3:accessibilityText" (TStr);
   F "Chapters" "id3:chapters" (t_id3_ChapterList);
   F "TableOfContents" "id3:tableOfContents" (t_id3_TocEntryList);
   F "AlbumArtistSortOrder" "id3:albumArtistSortOrder" (TStr);
   F "ComposerSortOrder" "id3:composerSortOrder" (TStr);
   F "IsCompilation" "id3:isCompilation" (t_id3_Bool);
   F "ITunesU" "id3:iTunesU" (t_id3_Bool);
   F "IsPodcast" "id3:isPodcast" (t_id3_Bool);
   F "PodcastDescription" "id3:podcastDescription" (TStr);
   F "PodcastID" "id3:podcastID" (TStr);
   F "PodcastURL" "id3:podcastURL" (TStr);
   F "PodcastKeywords" "id3:podcastKeywords" (TStr);
   F "PodcastCategory" "id3:podcastCategory" (TStr);
   F "Extension" "id3:extension" (t_xmp_TagList)].
Definition t_id3_ID3 : ty X := TStruct (StructInfo _ None false) (fields fs_id3_ID3).
(* models/itunes/enum.go:87 *)
Definition t_itunes_AppleStoreAccountType : ty X := TInt 64.
(* models/itunes/enum.go:71 *)
Definition t_itunes_RatingCode : ty X := TInt 64.
(* models/itunes/enum.go:268 *)
Definition t_itunes_GenreCode : ty X := TUint 8.
(* models/itunes/enum.go:265 *)
Definition t_itunes_GenreID : ty X := TInt 64.
(* models/itunes/types.go:64 *)
Definition t_itunes_Bool : ty X := TInt 64.
(* models/itunes/enum.go:80 *)
Definition t_itunes_PlayGapMode : ty X := TInt 64.
(* models/itunes/enum.go:25 *)
Definition t_itunes_MediaType : ty X := TInt 64.
(* models/itunes/types.go:70-75 *)
Definition t_itunes_ContentRating : ty X := TText (cdc "itunes.ContentRating").
(* models/itunes/types.go:27-32. *)
Definition fs_itunes_SMPB : raw := [
   F "EncoderDelay" "iTunes:EncoderDelay,attr" (TInt 64);
   F "EndPadding" "iTunes:EndPadding,attr" (TInt 64);
   F "OriginalSampleCount" "iTunes:OriginalSampleCount,attr" (TInt 64);
   F "EndOffset" "iTunes:EndOffset,attr" (TInt 64)].
Definition t_itunes_SMPB_record : ty X := TStruct (StructInfo _ None false) (fields fs_itunes_SMPB).
(* models/itunes/types.go:27-32 Written as the record above, read by UnmarshalText. *)
Definition t_itunes_SMPB : ty X := special.
(* models/itunes/movieinfo.go:40-45. *)
Definition fs_itunes_AssetInfo : raw := [
   F "FileSize" "iTunes:FileSize,attr" (TInt 64);
   F "Flavor" "iTunes:Flavor,attr" (TStr);
   F "ScreenFormat" "iTunes:ScreenFormat,attr" (TStr);
   F "Soundtrack" "iTunes:Soundtrack,attr" (TStr)].
Definition t_itunes_AssetInfo : ty X := TStruct (StructInfo _ None false) (fields fs_itunes_AssetInfo).
(* models/itunes/movieinfo.go:47-50. *)
Definition fs_itunes_Person : raw := [
   F "ID" "iTunes:AdamID,attr" (TStr);
   F "Name" "iTunes:Name,attr" (TStr)].
Definition t_itunes_Person : ty X := TStruct (StructInfo _ None false) (fields fs_itunes_Person).
(* models/itunes/movieinfo.go:52 *)
Definition t_itunes_PersonArray : ty X := TArr (ArrInfo _ "Bag" true (None) false) (t_itunes_Person).
(* models/itunes/movieinfo.go:22-31. *)
Definition fs_itunes_MovieInfo : raw := [
   F "AssetInfo" "iTunes:AssetInfo,attr" (TPtr (t_itunes_AssetInfo));
   F "Studio" "iTunes:Studio,attr" (TStr);
   F "Cast" "iTunes:Cast" (t_itunes_PersonArray);
   F "Directors" "iTunes:Directors" (t_itunes_PersonArray);
   F "CoDirectors" "iTunes:CoDirectors" (t_itunes_PersonArray);
   F "Screenwriters" "iTunes:Screenwriters" (t_itunes_PersonArray);
   F "Producers" "iTunes:Producers" (t_itunes_PersonArray);
   F "CopyWarning" "iTunes:CopyWarning" (TStr)].
Definition t_itunes_MovieInfo : ty X := TStruct (StructInfo _ None false) (fields fs_itunes_MovieInfo).
(* models/itunes/model.go:107-201. *)
Definition fs_itunes_ITunesMetadata : raw := [
   F "AccountKind" "iTunes:AccountKind" (t_itunes_AppleStoreAccountType);
   F "Acknowledgement" "iTunes:Acknowledgement" (TStr);
   F "Album" "iTunes:Album" (TStr);
   F "AlbumArtist" "iTunes:AlbumArtist" (TStr);
   F "AppleID" "iTunes:AppleID" (TStr);
   F "Arranger" "iTunes:Arranger" (TStr);
   F "ArtDirector" "iTunes:ArtDirector" (TStr);
   F "Artist" "iTunes:Artist" (TStr);
   F "ArtistID" "iTunes:ArtistID" (TStr);
   F "Author" "iTunes:Author" (TStr);
   F "BeatsPerMin" "iTunes:BeatsPerMin" (TInt 64);
   F "Comment" "iTunes:Comment" (TStr);
   F "Composer" "iTunes:Composer" (TStr);
   F "Conductor" "iTunes:Conductor" (TStr);
   F "IsExplicit" "iTunes:IsExplicit" (t_itunes_RatingCode);
   F "Copyright" "iTunes:Copyright" (TStr);
   F "CoverArt" "iTunes:CoverArt" (TStr);
   F "CoverUrl" "iTunes:CoverUrl" (t_xmp_Url);
   F "Credits" "iTunes:Credits" (TStr);
   F "Description" "iTunes:Description" (TStr);
   F "Director" "iTunes:Director" (TStr);
   F "DiscNumber" "iTunes:DiscNumber" (t_xmp_Rational);
   F "Duration" "iTunes:Duration" (TInt 64);
   F "EncodedBy" "iTunes:EncodedBy" (TStr);
   F "EncodingTool" "iTunes:EncodingTool" (TStr);
   F "EQ" "iTunes:EQ" (TStr);
   F "ExecProducer" "iTunes:ExecProducer" (TStr);
   F "GenreCode" "iTunes:GenreCode" (t_itunes_GenreCode);
   F "GenreID" "iTunes:GenreID" (t_itunes_GenreID);
   F "GenreName" "iTunes:GenreName" (TStr);
   F "Grouping" "iTunes:Grouping" (TStr);
   F "IconUrl" "iTunes:IconUrl" (t_xmp_Url);
   F "InfoUrl" "iTunes:InfoUrl" (t_xmp_Url);
   F "IsDiscCompilation" "iTunes:IsDiscCompilation" (t_itunes_Bool);
   F "IsGaplessPlayback" "iTunes:IsGaplessPlayback" (t_itunes_PlayGapMode);
   F "IsHDVideo" "iTunes:IsHDVideo" (t_itunes_Bool);
   F "IsiTunesU" "iTunes:IsiTunesU" (TStr);
   F "IsPodcast" "iTunes:IsPodcast" (t_itunes_Bool);
   F "Keywords" "iTunes:Keywords" (TStr);
   F "LinerNotes" "iTunes:LinerNotes" (TStr);
   F "Lyrics" "iTunes:Lyrics" (TStr);
   F "LyricsUrl" "iTunes:LyricsUrl" (TStr);
   F "MediaType" "iTunes:MediaType" (t_itunes_MediaType);
   F "Narrator" "iTunes:Narrator" (TStr);
   F "OnlineExtras" "iTunes:OnlineExtras" (TStr);
   F "OriginalArtist" "iTunes:OriginalArtist" (TStr);
   F "Performer" "iTunes:Performer" (TStr);
   F "PhonogramRights" "iTunes:PhonogramRights" (TStr);
   F "PlaylistID" "iTunes:PlaylistID" (TStr);
   F "PodcastCategory" "iTunes:PodcastCategory" (TStr);
   F "PodcastGuid" "iTunes:PodcastGuid" (TStr);
   F "PodcastUrl" "iTunes:PodcastUrl" (TStr);
   F "Producer" "iTunes:Producer" (TStr);
   F "ProductID" "iTunes:ProductID" (TStr);
   F "Publisher" "iTunes:Publisher" (TStr);
   F "PurchaseDate" "iTunes:PurchaseDate" (t_xmp_Date);
   F "RatingPercent" "iTunes:RatingPercent" (TStr);
   F "RecordCompany" "iTunes:RecordCompany" (TStr);
   F "ReleaseDate" "iTunes:ReleaseDate" (t_xmp_Date);
   F "ShowEpisodeName" "iTunes:ShowEpisodeName" (TStr);
   F "ShowEpisodeNum" "iTunes:ShowEpisodeNum" (TInt 64);
   F "ShowName" "iTunes:ShowName" (TStr);
   F "ShowSeasonNum" "iTunes:ShowSeasonNum" (TInt 64);
   F "Soloist" "iTunes:Soloist" (TStr);
   F "SongID" "iTunes:SongID" (TStr);
   F "SortAlbum" "iTunes:SortAlbum" (TStr);
   F "SortAlbumArtist" "iTunes:SortAlbumArtist" (TStr);
   F "SortArtist" "iTunes:SortArtist" (TStr);
   F "SortComposer" "iTunes:SortComposer" (TStr);
   F "SortName" "iTunes:SortName" (TStr);
   F "SortShow" "iTunes:SortShow" (TStr);
   F "SoundEngineer" "iTunes:SoundEngineer" (TStr);
   F "StoreFrontID" "iTunes:StoreFrontID" (TStr);
   F "Synopsis" "iTunes:Synopsis" (TStr);
   F "Thanks" "iTunes:Thanks" (TStr);
   F "Title" "iTunes:Title" (TStr);
   F "ToolInfo" "iTunes:ToolInfo" (TStr);
   F "TrackNumber" "iTunes:TrackNumber" (TInt 64);
   F "TrackSubTitle" "iTunes:TrackSubTitle" (TStr);
   F "TVNetworkName" "iTunes:TVNetworkName" (TStr);
   F "XID" "iTunes:XID" (TStr);
   F "ContentRating" "iTunes:ContentRating" (TPtr (t_itunes_ContentRating));
   F "SoundCheck" "iTunes:SoundCheck" (TBytes);
   F "SMPB" "iTunes:SMPB" (TPtr (t_itunes_SMPB));
   F "IsGaplessPlayback2" "iTunes:IsGaplessPlayback2" (t_itunes_Bool);
   F "MovieInfo" "iTunes:MovieInfo" (TPtr (t_itunes_MovieInfo));
   F "CDDBToc" "iTunes:CDDBToc" (TStr);
   F "CDDBTrackNumber" "iTunes:CDDBTrackNumber" (TStr);
   F "CDDBMediaID" "iTunes:CDDBMediaID" (TStr);
   F "EncodingParams" "iTunes:EncodingParams" (TBytes);
   F "Extension" "iTunes:extension" (t_xmp_TagList)].
Definition t_itunes_ITunesMetadata : ty X := TStruct (StructInfo _ None false) (fields fs_itunes_ITunesMetadata).
(* models/ixml/enum.go:22 *)
Definition t_ixml_TakeType : ty X := TStr.
(* models/ixml/enum.go:35 *)
Definition t_ixml_TakeTypeList : ty X := TArr (ArrInfo _ "Seq" false (Some (cdc "ixml.TakeTypeList")) false) (t_ixml_TakeType).
(* models/ixml/types.go:26 *)
Definition t_ixml_Bool : ty X := TText (cdc "ixml.Bool").
(* models/ixml/enum.go:444 *)
Definition t_ixml_SyncPointType : ty X := TStr.
(* models/ixml/enum.go:451 *)
Definition t_ixml_SyncPointFunctionType : ty X := TStr.
(* models/ixml/types.go:51-59. *)
Definition fs_ixml_SyncPoint : raw := [
   F "XMLName" "-" TStr;
   F "Type" "iXML:syncPointType" (t_ixml_SyncPointType);
   F "Function" "iXML:syncPointFunction" (t_ixml_SyncPointFunctionType);
   F "Comment" "iXML:syncPointComment" (TStr);
   F "Low" "iXML:syncPointLow" (TInt 64);
   F "High" "iXML:syncPointHigh" (TInt 64);
   F "EventDuration" "iXML:syncPointEventDuration" (TInt 64)].
Definition t_ixml_SyncPoint : ty X := TStruct (StructInfo _ None false) (fields fs_ixml_SyncPoint).
(* models/ixml/types.go:61 *)
Definition t_ixml_SyncPointList : ty X := TArr (ArrInfo _ "Seq" true (None) false) (t_ixml_SyncPoint).
(* models/ixml/enum.go:415 *)
Definition t_ixml_TimecodeFlag : ty X := TText (cdc "ixml.TimecodeFlag").
(* models/ixml/types.go:132-145. *)
Definition fs_ixml_Speed : raw := [
   F "XMLName" "-" TStr;
   F "Note" "iXML:note" (TStr);
   F "MasterSpeed" "iXML:masterSpeed" (t_xmp_Rational);
   F "CurrentSpeed" "iXML:currentSpeed" (t_xmp_Rational);
   F "TimecodeRate" "iXML:timecodeRate" (t_xmp_Rational);
   F "TimecodeFlag" "iXML:timecodeFlag" (t_ixml_TimecodeFlag);
   F "FileSampleRate" "iXML:fileSampleRate" (t_xmp_Rational);
   F "AudioBitDepth" "iXML:audioBitDepth" (TInt 64);
   F "DigitizerSampleRate" "iXML:digitizerSampleRate" (TInt 64);
   F "TimestampSamplesSinceMidnightHI" "iXML:timestampSamplesSinceMidnightHI" (TInt 64);
   F "TimestampSamplesSinceMidnightLO" "iXML:timestampSamplesSinceMidnightLO" (TInt 64);
   F "TimestampSampleRate" "iXML:timestampSampleRate" (TInt 64)].
Definition t_ixml_Speed : ty X := TStruct (StructInfo _ None false) (fields fs_ixml_Speed).
(* models/ixml/types.go:170-175. *)
Definition fs_ixml_History : raw := [
   F "XMLName" "-" TStr;
   F "OriginalFilename" "iXML:originalFilename" (TStr);
   F "ParentFilename" "iXML:parentFilename" (TStr);
   F "ParentUID" "iXML:parentUID" (TStr)].
Definition t_ixml_History : ty X := TStruct (StructInfo _ None false) (fields fs_ixml_History).
(* models/ixml/types.go:177-183. *)
Definition fs_ixml_FileSet : raw := [
   F "XMLName" "-" TStr;
   F "TotalFiles" "iXML:totalFiles" (TInt 64);
   F "FamilyUID" "iXML:familyUID" (TStr);
   F "FamilyName" "iXML:familyName" (TStr);
   F "FileSetIndex" "iXML:fileSetIndex" (TStr)].
Definition t_ixml_FileSet : ty X := TStruct (StructInfo _ None false) (fields fs_ixml_FileSet).
(* models/ixml/enum.go:285 *)
Definition t_ixml_FunctionType : ty X := TStr.
(* models/ixml/types.go:286-290. *)
Definition fs_ixml_DefaultMix : raw := [
   F "XMLName" "-" TStr;
   F "Level" "iXML:level" (TStr);
   F "Pan" "iXML:pan" (TStr)].
Definition t_ixml_DefaultMix : ty X := TStruct (StructInfo _ None false) (fields fs_ixml_DefaultMix).
(* models/ixml/types.go:185-192. *)
Definition fs_ixml_Track : raw := [
   F "XMLName" "-" TStr;
   F "ChannelIndex" "iXML:channelIndex" (TInt 64);
   F "InterleaveIndex" "iXML:interleaveIndex" (TInt 64);
   F "Name" "iXML:name" (TStr);
   F "Function" "iXML:function" (t_ixml_FunctionType);
   F "DefaultMix" "iXML:defaultMix" (t_ixml_DefaultMix)].
Definition t_ixml_Track : ty X := TStruct (StructInfo _ None false) (fields fs_ixml_Track).
(* models/ixml/types.go:194 *)
Definition t_ixml_TrackList : ty X := TArr (ArrInfo _ "Seq" true (None) false) (t_ixml_Track).
(* models/ixml/types.go:256-274. *)
Definition fs_ixml_UserData : raw := [
   F "XMLName" "-" TStr;
   F "Comment" "iXML:comment" (TStr);
   F "FullTitle" "iXML:fullTitle" (TStr);
   F "DirectorName" "iXML:directorName" (TStr);
   F "ProductionName" "iXML:productionName" (TStr);
   F "ProductionAddress" "iXML:productionAddress" (TStr);
   F "ProductionEmail" "iXML:productionEmail" (TStr);
   F "ProductionPhone" "iXML:productionPhone" (TStr);
   F "ProductionNote" "iXML:productionNote" (TStr);
   F "SoundMixerName" "iXML:soundMixerName" (TStr);
   F "SoundMixerAddress" "iXML:soundMixerAddress" (TStr);
   F "SoundMixerEmail" "iXML:soundMixerEmail" (TStr);
   F "SoundMixerPhone" "iXML:soundMixerPhone" (TStr);
   F "SoundMixerNote" "iXML:soundMixerNote" (TStr);
   F "AudioRecorderModel" "iXML:audioRecorderModel" (TStr);
   F "AudioRecorderSerialNumber" "iXML:audioRecorderSerialNumber" (TStr);
   F "AudioRecorderFirmware" "iXML:audioRecorderFirmware" (TStr)].
Definition t_ixml_UserData : ty X := TStruct (StructInfo _ None false) (fields fs_ixml_UserData).
(* models/ixml/enum.go:121 *)
Definition t_ixml_LocationType : ty X := TStr.
(* models/ixml/enum.go:128 *)
Definition t_ixml_LocationTypeList : ty X := TArr (ArrInfo _ "Seq" false (Some (cdc "ixml.LocationTypeList")) false) (t_ixml_LocationType).
(* models/ixml/enum.go:195 *)
Definition t_ixml_LocationTime : ty X := TStr.
(* models/ixml/enum.go:208 *)
Definition t_ixml_LocationTimeList : ty X := TArr (ArrInfo _ "Seq" false (Some (cdc "ixml.LocationTimeList")) false) (t_ixml_LocationTime).
(* models/ixml/types.go:276-283. *)
Definition fs_ixml_Location : raw := [
   F "XMLName" "-" TStr;
   F "LocationName" "iXML:locationName" (TStr);
   F "LocationGps" "iXML:locationGps" (TStr);
   F "LocationAltitude" "iXML:locationAltitude" (TStr);
   F "LocationType" "iXML:locationType" (t_ixml_LocationTypeList);
   F "LocationTime" "iXML:locationTime" (t_ixml_LocationTimeList)].
Definition t_ixml_Location : ty X := TStruct (StructInfo _ None false) (fields fs_ixml_Location).
(* xmp/xmp_ext.go:24 Has reading and writing methods of its own, which are not described. *)
Definition t_xmp_Extension : ty X := special.
(* xmp/xmp_ext.go:162 *)
Definition t_xmp_NamedExtensionArray : ty X := TArr (ArrInfo _ "Bag" true None false) (TPtr (t_xmp_Extension)).
(* models/ixml/model.go:71-95. *)
Definition fs_ixml_IXML : raw := [
   F "XMLName" "-" TStr;
   F "Version" "iXML:version" (TStr);
   F "Project" "iXML:project" (TStr);
   F "SceneName" "iXML:sceneName" (TStr);
   F "SoundRoll" "iXML:soundRoll" (TStr);
   F "Take" "iXML:take" (TInt 64);
   F "TakeType" "iXML:takeType" (t_ixml_TakeTypeList);
   F "IsNotGood" "-" TStr;
   F "IsFalseStart" "-" TStr;
   F "IsWildTrack" "-" TStr;
   F "PreRecordSamplecount" "-" TStr;
   F "IsCircled" "iXML:circled" (t_ixml_Bool);
   F "FileUID" "iXML:fileUid" (TStr);
   F "UserBits" "iXML:userBits" (TStr);
   F "Note" "iXML:note" (TStr);
   F "SyncPoints" "iXML:syncPoints" (t_ixml_SyncPointList);
   F "Speed" "iXML:speed" (TPtr (t_ixml_Speed));
   F "History" "iXML:history" (TPtr (t_ixml_History));
   F "FileSet" "iXML:fileSet" (TPtr (t_ixml_FileSet));
   F "TrackList" "iXML:trackList" (t_ixml_TrackList);
   F "UserData" "iXML:userData" (TPtr (t_ixml_UserData));
   F "Location" "iXML:location" (TPtr (t_ixml_Location));
   F "Extension" "iXML:extension,any" (t_xmp_NamedExtensionArray)].
Definition t_ixml_IXML_record : ty X := TStruct (StructInfo _ None false) (fields fs_ixml_IXML).
(* models/ixml/model.go:71-95 Written as the record above, read by UnmarshalText. *)
Definition t_ixml_IXML : ty X := special.
(* models/qt/types.go:18 *)
Definition t_qt_LocationRole : ty X := TInt 64.
(* models/qt/types.go:49-58. *)
Definition fs_qt_Location : raw := [
   F "Body" "qt:Body,attr" (TStr);
   F "Date" "qt:Date,attr" (t_xmp_Date);
   F "Longitude" "qt:Longitude,attr" (t_xmp_GPSCoord);
   F "Latitude" "qt:Latitude,attr" (t_xmp_GPSCoord);
   F "Altitude" "qt:Altitude,attr" (TText (cdc "float64"));
   F "Name" "qt:Name,attr" (TStr);
   F "Note" "qt:Note,attr" (TStr);
   F "Role" "qt:Role,attr" (t_qt_LocationRole)].
Definition t_qt_Location_record : ty X := TStruct (StructInfo _ None false) (fields fs_qt_Location).
(* models/qt/types.go:49-58 Written as the record above, read by UnmarshalText. *)
Definition t_qt_Location : ty X := special.
(* models/mp4/model.go:37-55. *)
Definition fs_mp4_MP4Info : raw := [
   F "AlbumAndTrack" "mp4:AlbumAndTrack" (TStr);
   F "Author" "mp4:Author" (TStr);
   F "Classification" "mp4:Classification" (TStr);
   F "CollectionName" "mp4:CollectionName" (TStr);
   F "Copyright" "mp4:Copyright" (TStr);
   F "CreationDate" "mp4:CreationDate" (t_xmp_Date);
   F "Description" "mp4:Description" (TStr);
   F "GenreName" "mp4:GenreName" (TStr);
   F "KeywordList" "mp4:KeywordList" (t_xmp_StringList);
   F "Location" "mp4:Location" (TPtr (t_qt_Location));
   F "MediaRatingText" "mp4:MediaRatingText" (TStr);
   F "Performer" "mp4:Performer" (TStr);
   F "RecordingYear" "mp4:RecordingYear" (TInt 64);
   F "TaggedCharacteristic" "mp4:TaggedCharacteristic" (TStr);
   F "Thumbnail" "mp4:Thumbnail" (TBytes);
   F "Title" "mp4:Title" (TStr);
   F "UserRating" "mp4:UserRating" (TInt 64)].
Definition t_mp4_MP4Info : ty X := TStruct (StructInfo _ None false) (fields fs_mp4_MP4Info).
(* models/pdf/model.go:54-67. *)
Definition fs_pdf_PDFInfo : raw := [
   F "Title" "dc:title" (t_xmp_AltString);
   F "Author" "dc:creator" (t_xmp_StringList);
   F "Subject" "dc:description" (t_xmp_AltString);
   F "Keywords" "pdf:Keywords" (TStr);
   F "Creator" "xmp:CreatorTool" (t_xmp_AgentName);
   F "Producer" "pdf:Producer" (t_xmp_AgentName);
   F "PDFVersion" "pdf:PDFVersion" (TStr);
   F "CreationDate" "xmp:CreateDate" (t_xmp_Date);
   F "ModifyDate" "xmp:ModifyDate" (t_xmp_Date);
   F "Trapped" "pdf:Trapped" (t_xmp_Bool);
   F "Copyright" "pdf:Copyright" (TStr);
   F "Marked" "pdf:Marked" (t_xmp_Bool)].
Definition t_pdf_PDFInfo : ty X := TStruct (StructInfo _ None false) (fields fs_pdf_PDFInfo).
(* models/pm/model.go:119 *)
Definition t_pm_Time : ty X := TText (cdc "pm.Time").
(* models/pm/model.go:153-158 *)
Definition t_pm_Preferences : ty X := TText (cdc "pm.Preferences").
(* models/pm/model.go:98-117. *)
Definition fs_pm_Photomechanic : raw := [
   F "EditStatus" "photomechanic:EditStatus" (TStr);
   F "ColorClass" "photomechanic:ColorClass" (TInt 64);
   F "CountryCode" "photomechanic:CountryCode" (TStr);
   F "TimeCreated" "photomechanic:TimeCreated" (t_pm_Time);
   F "Prefs" "photomechanic:Prefs" (t_pm_Preferences);
   F "Tagged" "photomechanic:Tagged" (t_xmp_Bool);
   F "Version" "photomechanic:PMVersion" (TStr);
   F "ColorClassEval" "photomechanic:ColorClassEval" (TInt 64);
   F "ColorClassApply" "photomechanic:ColorClassApply" (t_xmp_Bool);
   F "RatingEval" "photomechanic:RatingEval" (TInt 64);
   F "RatingApply" "photomechanic:RatingApply" (t_xmp_Bool);
   F "TagEval" "photomechanic:TagEval" (TInt 64);
   F "TagApply" "photomechanic:TagApply" (t_xmp_Bool);
   F "CaptionMergeStyle" "photomechanic:CaptionMergeStyle" (TInt 64);
   F "ApplyAPCustom" "photomechanic:ApplyAPCustom" (TInt 64);
   F "MergeAPCustom" "photomechanic:MergeAPCustom" (TInt 64);
   F "ApplyDateType" "photomechanic:ApplyDateType" (TInt 64);
   F "FieldsToApply" "photomechanic:FieldsToApply" (t_xmp_StringArray)].
Definition t_pm_Photomechanic : ty X := TStruct (StructInfo _ None false) (fields fs_pm_Photomechanic).
(* models/ps/model.go:164 *)
Definition t_ps_ColorMode : ty X := TInt 64.
(* models/ps/model.go:122-124. *)
Definition fs_ps_Anchestor : raw := [
   F "AncestorID" "photoshop:AncestorID" (t_xmp_Uri)].
Definition t_ps_Anchestor : ty X := TStruct (StructInfo _ None false) (fields fs_ps_Anchestor).
(* models/ps/model.go:126 *)
Definition t_ps_AnchestorArray : ty X := TArr (ArrInfo _ "Bag" true (None) false) (t_ps_Anchestor).
(* models/ps/model.go:141-144. IsZero: 146-148. *)
Definition fs_ps_Layer : raw := [
   F "LayerName" "photoshop:LayerName" (TStr);
   F "LayerText" "photoshop:LayerText" (TStr)].
Definition t_ps_Layer : ty X := TStruct (StructInfo _ (Some (all_zero fs_ps_Layer ["LayerName"; "LayerText"])) false) (fields fs_ps_Layer).
(* models/ps/model.go:150 *)
Definition t_ps_LayerList : ty X := TArr (ArrInfo _ "Seq" true (None) false) (t_ps_Layer).
(* models/ps/model.go:54-79. *)
Definition fs_ps_PhotoshopInfo : raw := [
   F "AuthorsPosition" "photoshop:AuthorsPosition" (TStr);
   F "CaptionWriter" "photoshop:CaptionWriter" (TStr);
   F "Category" "photoshop:Category" (TStr);
   F "City" "photoshop:City" (TStr);
   F "ColorMode" "photoshop:ColorMode" (t_ps_ColorMode);
   F "Country" "photoshop:Country" (TStr);
   F "Credit" "photoshop:Credit" (TStr);
   F "DateCreated" "photoshop:DateCreated" (t_xmp_Date);
   F "DocumentAncestors" "photoshop:DocumentAncestors" (t_ps_AnchestorArray);
   F "Headline" "photoshop:Headline" (TStr);
   F "History" "photoshop:History" (TStr);
   F "ICCProfile" "photoshop:ICCProfile" (TStr);
   F "Instructions" "photoshop:Instructions" (TStr);
   F "Layer" "photoshop:Layer" (TPtr (t_ps_Layer));
   F "SidecarForExtension" "photoshop:SidecarForExtension" (TStr);
   F "Source" "photoshop:Source" (TStr);
   F "State" "photoshop:State" (TStr);
   F "SupplementalCategories" "photoshop:SupplementalCategories" (t_xmp_StringArray);
   F "TextLayers" "photoshop:TextLayers" (t_ps_LayerList);
   F "TransmissionReference" "photoshop:TransmissionReference" (TStr);
   F "Urgency" "photoshop:Urgency" (TInt 64);
   F "EmbeddedXMPDigest" "photoshop:EmbeddedXMPDigest,omit" (TStr);
   F "LegacyIPTCDigest" "photoshop:LegacyIPTCDigest,omit" (TStr)].
Definition t_ps_PhotoshopInfo : ty X := TStruct (StructInfo _ None false) (fields fs_ps_PhotoshopInfo).
(* models/qt/types.go:65-68 *)
Definition t_qt_Point : ty X := TText (cdc "qt.Point").
(* models/qt/qt_userdata.go:28-166. *)
Definition fs_qt_QtUserdata : raw := [
   F "Album" "qt:Album" (TStr);
   F "Arranger" "qt:Arranger" (TStr);
   F "Artist" "qt:Artist" (TStr);
   F "Author" "qt:Author" (TStr);
   F "Chapter" "qt:Chapter" (TStr);
   F "Comment" "qt:Comment" (TStr);
   F "Composer" "qt:Composer" (TStr);
   F "Copyright" "qt:Copyright" (TStr);
   F "ReleaseDate" "qt:ReleaseDate" (t_xmp_Date);
   F "Description" "qt:Description" (TStr);
   F "Director" "qt:Director" (TStr);
   F "Disclaimer" "qt:Disclaimer" (TStr);
   F "EncodedBy" "qt:EncodedBy" (TStr);
   F "Title" "qt:Title" (TStr);
   F "GenreName" "qt:GenreName" (TStr);
   F "HostComputer" "qt:HostComputer" (TStr);
   F "Information" "qt:Information" (TStr);
   F "Keywords" "qt:Keywords" (TStr);
   F "FileCreator" "qt:FileCreator" (TStr);
   F "FileCreatorModel" "qt:FileCreatorModel" (TStr);
   F "OriginalArtist" "qt:OriginalArtist" (TStr);
   F "FileFormat" "qt:FileFormat" (TStr);
   F "Credits" "qt:Credits" (TStr);
   F "Performer" "qt:Performer" (TStr);
   F "Producer" "qt:Producer" (TStr);
   F "Publisher" "qt:Publisher" (TStr);
   F "Product" "qt:Product" (TStr);
   F "FileCreatorSoftware" "qt:FileCreatorSoftware" (TStr);
   F "PlaybackRequirements" "qt:PlaybackRequirements" (TStr);
   F "Track" "qt:Track" (TStr);
   F "CopyWarning" "qt:CopyWarning" (TStr);
   F "Writer" "qt:Writer" (TStr);
   F "Url" "qt:Url" (t_xmp_Url);
   F "LocationGPS" "qt:LocationGPS" (TPtr (t_qt_Location));
   F "TrackName" "qt:TrackName" (TStr);
   F "PhonogramRights" "qt:PhonogramRights" (TStr);
   F "DisplayName" "qt:DisplayName" (TStr);
   F "TaggedCharacteristic" "qt:TaggedCharacteristic" (TStr);
   F "AudioBookReleaseDate" "qt:AudioBookReleaseDate" (t_xmp_Date);
   F "ClipFileName" "qt:ClipFileName" (TStr);
   F "ClipID" "qt:ClipID" (TStr);
   F "ContentDistributorID" "qt:ContentDistributorID" (TStr);
   F "ContentID" "qt:ContentID" (TStr);
   F "CreationDate" "qt:CreationDate" (t_xmp_Date);
   F "Grouping" "qt:Grouping" (TStr);
   F "GUID" "qt:GUID" (TStr);
   F "ISRCCode" "qt:ISRCCode" (TStr);
   F "AlbumArtist" "qt:AlbumArtist" (TStr);
   F "Angle" "qt:Angle" (TStr);
   F "ArrangerKeywords" "qt:ArrangerKeywords" (TStr);
   F "AudibleTags" "qt:AudibleTags" (TStr);
   F "CameraID" "qt:CameraID" (TStr);
   F "CameraManufacturer" "qt:CameraManufacturer" (TStr);
   F "CameraModel" "qt:CameraModel" (TStr);
   F "CameraName" "qt:CameraName" (TStr);
   F "CameraSerialNumber" "qt:CameraSerialNumber" (TStr);
   F "ChapterList" "qt:ChapterList" (TStr);
   F "ComposerKeywords" "qt:ComposerKeywords" (TStr);
   F "Edit1" "qt:Edit1" (TStr);
   F "Edit2" "qt:Edit2" (TStr);
   F "Edit3" "qt:Edit3" (TStr);
   F "Edit4" "qt:Edit4" (TStr);
   F "Edit5" "qt:Edit5" (TStr);
   F "Edit6" "qt:Edit6" (TStr);
   F "Edit7" "qt:Edit7" (TStr);
   F "Edit8" "qt:Edit8" (TStr);
   F "Edit9" "qt:Edit9" (TStr);
   F "FileCreatorModel2" "qt:FileCreatorModel2" (TStr);
   F "FileCreatorUrl" "qt:FileCreatorUrl" (t_xmp_Url);
   F "Lyrics" "qt:Lyrics" (TStr);
   F "LyricsUrl" "qt:LyricsUrl" (t_xmp_Url);
   F "OriginalFormat" "qt:OriginalFormat" (TStr);
   F "OriginalSource" "qt:OriginalSource" (TStr);
   F "PerformerKeywords" "qt:PerformerKeywords" (TStr);
   F "PerformerUrl" "qt:PerformerUrl" (t_xmp_Url);
   F "ProducerKeywords" "qt:ProducerKeywords" (TStr);
   F "ProductVersion" "qt:ProductVersion" (TStr);
   F "RecordLabelName" "qt:RecordLabelName" (TStr);
   F "RecordLabelUrl" "qt:RecordLabelUrl" (t_xmp_Url);
   F "Reel" "qt:Reel" (TStr);
   F "Scene" "qt:Scene" (TStr);
   F "Shot" "qt:Shot" (TStr);
   F "SongWriter" "qt:SongWriter" (TStr);
   F "SongWriterKeywords" "qt:SongWriterKeywords" (TStr);
   F "Subtitle" "qt:Subtitle" (TStr);
   F "SubtitleKeywords" "qt:SubtitleKeywords" (TStr);
   F "Synopsis" "qt:Synopsis" (TStr);
   F "TitleKeywords" "qt:TitleKeywords" (TStr);
   F "CoverArt" "qt:CoverArt" (TStr);
   F "CollectionUser" "qt:CollectionUser" (TStr);
   F "UserRating" "qt:UserRating" (TStr);
   F "RecordingYear" "qt:RecordingYear" (TInt 64);
   F "ApertureMode" "qt:ApertureMode" (TStr);
   F "FlightPitch" "qt:FlightPitch" (TText (cdc "float64"));
   F "FlightRoll" "qt:FlightRoll" (TText (cdc "float64"));
   F "FlightSpeedX" "qt:FlightSpeedX" (TText (cdc "float64"));
   F "FlightSpeedY" "qt:FlightSpeedY" (TText (cdc "float64"));
   F "FlightSpeedZ" "qt:FlightSpeedZ" (TText (cdc "float64"));
   F "FlightYaw" "qt:FlightYaw" (TText (cdc "float64"));
   F "GimbalPitch" "qt:GimbalPitch" (TText (cdc "float64"));
   F "GimbalRoll" "qt:GimbalRoll" (TText (cdc "float64"));
   F "GimbalYaw" "qt:GimbalYaw" (TText (cdc "float64"));
   F "HintInfo" "qt:HintInfo" (TStr);
   F "HintTrackInfo" "qt:HintTrackInfo" (TStr);
   F "HintVersion" "qt:HintVersion" (TStr);
   F "PrintToVideo" "qt:PrintToVideo" (TStr);
   F "TrackType" "qt:TrackType" (TStr);
   F "WindowLocation" "qt:WindowLocation" (t_qt_Point);
   F "GoogleHostHeader" "qt:GoogleHostHeader" (TStr);
   F "GooglePingMessage" "qt:GooglePingMessage" (TStr);
   F "GooglePingURL" "qt:GooglePingURL" (TStr);
   F "GoogleSourceData" "qt:GoogleSourceData" (TStr);
   F "GoogleStartTime" "qt:GoogleStartTime" (TStr);
   F "GoogleTrackDuration" "qt:GoogleTrackDuration" (TStr);
   F "CanonCodec" "qt:CanonCodec" (TStr);
   F "CanonModel" "qt:CanonModel" (TStr);
   F "CanonFirmware" "qt:CanonFirmware" (TStr);
   F "CanonThumbnail" "qt:CanonThumbnail" (TBytes)].
Definition t_qt_QtUserdata : ty X := TStruct (StructInfo _ None false) (fields fs_qt_QtUserdata).
(* models/qt/types.go:26 *)
Definition t_qt_Bool : ty X := TInt 64.
(* models/qt/qt_metadata.go:41-111. *)
Definition fs_qt_QtMetadata : raw := [
   F "Album" "qt:Album" (TStr);
   F "Arranger" "qt:Arranger" (TStr);
   F "Artist" "qt:Artist" (TStr);
   F "Artwork" "qt:Artwork" (TStr);
   F "Author" "qt:Author" (TStr);
   F "CameraFrameReadoutTime" "qt:CameraFrameReadoutTime" (TStr);
   F "CameraIdentifier" "qt:CameraIdentifier" (TStr);
   F "CollectionUser" "qt:CollectionUser" (TStr);
   F "Comment" "qt:Comment" (TStr);
   F "Composer" "qt:Composer" (TStr);
   F "ContentIdentifier" "qt:ContentIdentifier" (TStr);
   F "Copyright" "qt:Copyright" (TStr);
   F "CreationDate" "qt:CreationDate" (t_xmp_Date);
   F "Credits" "qt:Credits" (TStr);
   F "Description" "qt:Description" (TStr);
   F "DirectionFacing" "qt:DirectionFacing" (TText (cdc "float64"));
   F "DirectionMotion" "qt:DirectionMotion" (TText (cdc "float64"));
   F "Director" "qt:Director" (TStr);
   F "DisplayName" "qt:DisplayName" (TStr);
   F "EncodedBy" "qt:EncodedBy" (TStr);
   F "Genre" "qt:Genre" (TStr);
   F "Information" "qt:Information" (TStr);
   F "Keywords" "qt:Keywords" (t_xmp_StringList);
   F "LocationBody" "-" TStr;
   F "LocationDate" "-" TStr;
   F "LocationISO6709" "-" TStr;
   F "LocationName" "-" TStr;
   F "LocationNote" "-" TStr;
   F "LocationRole" "-" TStr;
   F "Make" "qt:Make" (TStr);
   F "Model" "qt:Model" (TStr);
   F "OriginalArtist" "qt:OriginalArtist" (TStr);
   F "Performer" "qt:Performer" (TStr);
   F "PhonogramRights" "qt:PhonogramRights" (TStr);
   F "Producer" "qt:Producer" (TStr);
   F "Publisher" "qt:Publisher" (TStr);
   F "USRating" "qt:USRating" (TText (cdc "float64"));
   F "Software" "qt:Software" (TStr);
   F "Title" "qt:Title" (TStr);
   F "Year" "qt:Year" (TInt 64);
   F "Version" "qt:Version" (TStr);
   F "PreferredAffineTransform" "qt:PreferredAffineTransform" (TStr);
   F "VideoOrientation" "qt:VideoOrientation" (t_tiff_OrientationType);
   F "WindowLocation" "qt:WindowLocation" (t_qt_Point);
   F "CoreMotion" "qt:CoreMotion" (TStr);
   F "CameraDebugInfo" "qt:CameraDebugInfo" (TStr);
   F "IsMontage" "qt:IsMontage" (TStr);
   F "PixelDensity" "qt:PixelDensity" (TStr);
   F "DetectedFace" "qt:DetectedFace" (TStr);
   F "HasEAN13" "qt:HasEAN13" (t_qt_Bool);
   F "HasEAN8" "qt:HasEAN8" (t_qt_Bool);
   F "HasUPCE" "qt:HasUPCE" (t_qt_Bool);
   F "HasCode39" "qt:HasCode39" (t_qt_Bool);
   F "HasCode39Checksum" "qt:HasCode39Checksum" (t_qt_Bool);
   F "HasCode93" "qt:HasCode93" (t_qt_Bool);
   F "HasCode128" "qt:HasCode128" (t_qt_Bool);
   F "HasI2of5" "qt:HasI2of5" (t_qt_Bool);
   F "HasITF14" "qt:HasITF14" (t_qt_Bool);
   F "HasDataMatrix" "qt:HasDataMatrix" (t_qt_Bool);
   F "HasQR" "qt:HasQR" (t_qt_Bool);
   F "HasAztec" "qt:HasAztec" (t_qt_Bool);
   F "HasPDF417" "qt:HasPDF417" (t_qt_Bool);
   F "Extension" "qt:extension" (t_xmp_TagList);
   F "Location" "qt:Location" (TPtr (t_qt_Location))].
Definition t_qt_QtMetadata : ty X := TStruct (StructInfo _ None false) (fields fs_qt_QtMetadata).
(* models/qt/qt_player.go:22-34. *)
Definition fs_qt_QtPlayer : raw := [
   F "AudioBalance" "qt:AudioBalance" (TText (cdc "float32"));
   F "AudioBass" "qt:AudioBass" (TText (cdc "float32"));
   F "AudioGain" "qt:AudioGain" (TText (cdc "float32"));
   F "AudioMute" "qt:AudioMute" (t_qt_Bool);
   F "AudioPitchshift" "qt:AudioPitchshift" (TText (cdc "float32"));
   F "AudioTreble" "qt:AudioTreble" (TText (cdc "float32"));
   F "VisualBrightness" "qt:VisualBrightness" (TText (cdc "float32"));
   F "VisualColor" "qt:VisualColor" (TText (cdc "float32"));
   F "VisualContrast" "qt:VisualContrast" (TText (cdc "float32"));
   F "VisualTint" "qt:VisualTint" (TText (cdc "float32"));
   F "Version" "qt:Version" (TStr)].
Definition t_qt_QtPlayer : ty X := TStruct (StructInfo _ None false) (fields fs_qt_QtPlayer).
(* models/qt/qt_proapps.go:22-72. *)
Definition fs_qt_QtProApps : raw := [
   F "ClipID" "qt:ClipID" (TStr);
   F "OriginalFormat" "qt:OriginalFormat" (TStr);
   F "CustomColor" "qt:CustomColor" (TStr);
   F "CameraName" "qt:CameraName" (TStr);
   F "MIOCameraName" "qt:MIOCameraName" (TStr);
   F "Scene" "qt:Scene" (TStr);
   F "Shot" "qt:Shot" (TStr);
   F "Angle" "qt:Angle" (TStr);
   F "LogNote" "qt:LogNote" (TStr);
   F "LastUpdateDate" "qt:Lastupdatedate" (t_xmp_Date);
   F "IngestDateDescription" "qt:IngestDateDescription" (TStr);
   F "StartTimeCodeFrameCount" "qt:StartTimeCodeFrameCount" (TInt 64);
   F "DropFrame" "qt:DropFrame" (t_qt_Bool);
   F "VideoFrameDuration" "qt:VideoFrameDuration" (TInt 64);
   F "Category" "qt:Category" (TStr);
   F "ShareID" "qt:ShareID" (TStr);
   F "EpisodeID" "qt:EpisodeID" (TStr);
   F "EpisodeNumber" "qt:EpisodeNumber" (TStr);
   F "MediaKind" "qt:MediaKind" (TStr);
   F "Screenwriters" "qt:Screenwriters" (TStr);
   F "SeasonNumber" "qt:SeasonNumber" (TStr);
   F "TVNetwork" "qt:TVNetwork" (TStr);
   F "Reel" "qt:Reel" (TStr);
   F "CameraID" "qt:CameraID" (TStr);
   F "CameraManufacturer" "qt:CameraManufacturer" (TStr);
   F "CameraModel" "qt:CameraModel" (TStr);
   F "CameraSerialNumber" "qt:CameraSerialNumber" (TStr);
   F "ClipFileName" "qt:ClipFileName" (TStr);
   F "AscCDL" "qt:AscCDL" (TStr);
   F "IsGood" "qt:IsGood" (TStr);
   F "DataSize" "qt:DataSize" (TStr);
   F "DisplayFormat" "qt:DisplayFormat" (TStr);
   F "ShootingRate" "qt:ShootingRate" (TStr);
   F "VideoBitrate" "qt:VideoBitrate" (TStr);
   F "Pulldown" "qt:Pulldown" (TStr);
   F "MediaRate" "qt:MediaRate" (TStr);
   F "TimecodeFormat" "qt:TimecodeFormat" (TStr);
   F "NumberOfAudioChannels" "qt:NumberOfAudioChannels" (TStr);
   F "SampleRate" "qt:SampleRate" (TStr);
   F "BitsPerSample" "qt:BitsPerSample" (TStr);
   F "StudioAlphaHandling" "qt:StudioAlphaHandling" (TStr);
   F "StudioCameraAngle" "qt:StudioCameraAngle" (TStr);
   F "StudioAnamorphicOverride" "qt:StudioAnamorphicOverride" (TStr);
   F "StudioDeinterlace" "qt:StudioDeinterlace" (TStr);
   F "StudioFieldDominanceOverride" "qt:StudioFieldDominanceOverride" (TStr);
   F "StudioLocation" "qt:StudioLocation" (TStr);
   F "StudioReel" "qt:StudioReel" (TStr);
   F "StudioScene" "qt:StudioScene" (TStr);
   F "StudioShot" "qt:StudioTake" (TStr)].
Definition t_qt_QtProApps : ty X := TStruct (StructInfo _ None false) (fields fs_qt_QtProApps).
(* models/qt/model.go:74-86. *)
Definition fs_qt_QtInfo : raw := [
   F "Udta" "qt:udta" (TPtr (t_qt_QtUserdata));
   F "Mdta" "qt:mdta" (TPtr (t_qt_QtMetadata));
   F "Player" "qt:player" (TPtr (t_qt_QtPlayer));
   F "ProApps" "qt:proapps" (TPtr (t_qt_QtProApps));
   F "IXML" "-" TStr;
   F "XMP" "-" TStr;
   F "Extension" "qt:extension" (t_xmp_TagList)].
Definition t_qt_QtInfo : ty X := TStruct (StructInfo _ None false) (fields fs_qt_QtInfo).
(* models/riff/types.go:22 Its UnmarshalText is for native tags. *)
Definition t_riff_StringArray : ty X := TArr (ArrInfo _ "Bag" true (None) false) (TStr).
(* models/riff/types.go:41 *)
Definition t_riff_AltString : ty X := TAlt false.
(* models/riff/model.go:54-145. *)
Definition fs_riff_RiffInfo : raw := [
   F "ArchiveLocation" "riffinfo:archivalLocation" (TStr);
   F "Artist" "xmpDM:artist" (TStr);
   F "CommissionedBy" "riffinfo:commissioned" (t_riff_StringArray);
   F "Comments" "xmpDM:logComment" (TStr);
   F "Copyright" "dc:rights" (t_riff_AltString);
   F "CreateDate" "xmp:CreateDate" (t_xmp_Date);
   F "Engineeer" "xmpDM:engineer" (TStr);
   F "Genre" "xmpDM:genre" (TStr);
   F "Keywords" "dc:subject" (t_riff_StringArray);
   F "SourceMedium" "dc:source" (TStr);
   F "Title" "riffinfo:name" (t_riff_AltString);
   F "Product" "riffinfo:product" (TStr);
   F "Description" "dc:description" (t_riff_AltString);
   F "Software" "xmp:CreatorTool" (t_xmp_AgentName);
   F "SourceCredit" "riffinfo:source" (TStr);
   F "SourceType" "dc:type" (t_riff_StringArray);
   F "Technician" "riffinfo:technician" (TStr);
   F "Rated" "riffinfo:Rated" (TStr);
   F "Comment" "riffinfo:Comment" (TStr);
   F "EncodedBy" "riffinfo:EncodedBy" (TStr);
   F "Comments2" "riffinfo:Comments" (TStr);
   F "Directory" "riffinfo:Directory" (TStr);
   F "SoundSchemeTitle" "riffinfo:SoundSchemeTitle" (TStr);
   F "DateTimeOriginal" "riffinfo:DateTimeOriginal" (TStr);
   F "Genre2" "riffinfo:Genre" (TStr);
   F "ArchivalLocation" "riffinfo:ArchivalLocation" (TStr);
   F "FirstLanguage" "riffinfo:FirstLanguage" (TStr);
   F "SecondLanguage" "riffinfo:SecondLanguage" (TStr);
   F "ThirdLanguage" "riffinfo:ThirdLanguage" (TStr);
   F "FourthLanguage" "riffinfo:FourthLanguage" (TStr);
   F "FifthLanguage" "riffinfo:FifthLanguage" (TStr);
   F "SixthLanguage" "riffinfo:SixthLanguage" (TStr);
   F "SeventhLanguage" "riffinfo:SeventhLanguage" (TStr);
   F "EighthLanguage" "riffinfo:EighthLanguage" (TStr);
   F "NinthLanguage" "riffinfo:NinthLanguage" (TStr);
   F "BaseURL" "riffinfo:BaseURL" (TStr);
   F "DefaultAudioStream" "riffinfo:DefaultAudioStream" (TStr);
   F "CostumeDesigner" "riffinfo:CostumeDesigner" (TStr);
   F "Commissioned" "riffinfo:Commissioned" (TStr);
   F "Cinematographer" "riffinfo:Cinematographer" (TStr);
   F "Country" "riffinfo:Country" (TStr);
   F "Cropped" "riffinfo:Cropped" (TStr);
   F "Dimensions" "riffinfo:Dimensions" (TStr);
   F "DateTimeOriginal2" "-" TStr;
   F "DotsPerInch" "riffinfo:DotsPerInch" (TStr);
   F "DistributedBy" "riffinfo:DistributedBy" (TStr);
   F "EditedBy" "riffinfo:EditedBy" (TStr);
   F "EncodedBy2" "-" TStr;
   F "Lightness" "riffinfo:Lightness" (TStr);
   F "LogoURL" "riffinfo:LogoURL" (TStr);
   F "LogoIconURL" "riffinfo:LogoIconURL" (TStr);
   F "Language" "riffinfo:Language" (TStr);
   F "MoreInfoBannerImage" "riffinfo:MoreInfoBannerImage" (TStr);
   F "MoreInfoBannerURL" "riffinfo:MoreInfoBannerURL" (TStr);
   F "MoreInfoText" "riffinfo:MoreInfoText" (TStr);
   F "MoreInfoURL" "riffinfo:MoreInfoURL" (TStr);
   F "MusicBy" "riffinfo:MusicBy" (TStr);
   F "ProductionDesigner" "riffinfo:ProductionDesigner" (TStr);
   F "NumColors" "riffinfo:NumColors" (TStr);
   F "ProducedBy" "riffinfo:ProducedBy" (TStr);
   F "RippedBy" "riffinfo:RippedBy" (TStr);
   F "Rating" "riffinfo:Rating" (TStr);
   F "SecondaryGenre" "riffinfo:SecondaryGenre" (TStr);
   F "Sharpness" "riffinfo:Sharpness" (TStr);
   F "TimeCode" "riffinfo:TimeCode" (TStr);
   F "ProductionStudio" "riffinfo:ProductionStudio" (TStr);
   F "Starring" "riffinfo:Starring" (TStr);
   F "WatermarkURL" "riffinfo:WatermarkURL" (TStr);
   F "WrittenBy" "riffinfo:WrittenBy" (TStr);
   F "Language2" "riffinfo:Language2" (TStr);
   F "Location" "riffinfo:Location" (TStr);
   F "Part" "riffinfo:Part" (TStr);
   F "NumberOfParts" "riffinfo:NumberOfParts" (TStr);
   F "Rate" "riffinfo:Rate" (TStr);
   F "Starring2" "-" TStr;
   F "Statistics" "riffinfo:Statistics" (TStr);
   F "TapeName" "riffinfo:TapeName" (TStr);
   F "EndTimecode" "riffinfo:EndTimecode" (TStr);
   F "StartTimecode" "riffinfo:StartTimecode" (TStr);
   F "Title2" "riffinfo:Title" (TStr);
   F "Length" "riffinfo:Length" (TStr);
   F "Organization" "riffinfo:Organization" (TStr);
   F "TrackNumber" "riffinfo:TrackNumber" (TStr);
   F "URL" "riffinfo:URL" (TStr);
   F "Version" "riffinfo:Version" (TStr);
   F "VegasVersionMajor" "riffinfo:VegasVersionMajor" (TStr);
   F "VegasVersionMinor" "riffinfo:VegasVersionMinor" (TStr);
   F "Year" "riffinfo:Year" (TStr)].
Definition t_riff_RiffInfo : ty X := TStruct (StructInfo _ None false) (fields fs_riff_RiffInfo).
(* models/tiff/model.go:56-92. *)
Definition fs_tiff_TiffInfo : raw := [
   F "Artist" "dc:creator" (t_xmp_StringList);
   F "BitsPerSample" "tiff:BitsPerSample" (t_xmp_IntList);
   F "Compression" "tiff:Compression" (t_tiff_CompressionType);
   F "DateTime" "xmp:ModifyDate" (t_xmp_Date);
   F "ImageLength" "tiff:ImageLength" (TInt 64);
   F "ImageWidth" "tiff:ImageWidth" (TInt 64);
   F "Make" "tiff:Make" (TStr);
   F "Model" "tiff:Model" (TStr);
   F "Software" "xmp:CreatorTool" (TStr);
   F "ImageDescription" "dc:description" (t_xmp_AltString);
   F "Copyright" "dc:rights" (t_xmp_AltString);
   F "Orientation" "tiff:Orientation" (t_tiff_OrientationType);
   F "PhotometricInterpretation" "tiff:PhotometricInterpretation" (t_tiff_ColorModel);
   F "PlanarConfiguration" "tiff:PlanarConfiguration" (t_tiff_PlanarType);
   F "PrimaryChromaticities" "tiff:PrimaryChromaticities" (t_xmp_RationalArray);
   F "ReferenceBlackWhite" "tiff:ReferenceBlackWhite" (t_xmp_RationalArray);
   F "ResolutionUnit" "tiff:ResolutionUnit" (t_tiff_ResolutionUnit);
   F "SamplesPerPixel" "tiff:SamplesPerPixel" (TInt 64);
   F "TransferFunction" "tiff:TransferFunction" (t_xmp_IntList);
   F "WhitePoint" "tiff:WhitePoint" (t_xmp_RationalArray);
   F "XResolution" "tiff:XResolution" (t_xmp_Rational);
   F "YCbCrCoefficients" "tiff:YCbCrCoefficients" (t_xmp_RationalArray);
   F "YCbCrPositioning" "tiff:YCbCrPositioning" (t_tiff_YCbCrPosition);
   F "YCbCrSubSampling" "tiff:YCbCrSubSampling" (t_tiff_YCbCrSubSampling);
   F "YResolution" "tiff:YResolution" (t_xmp_Rational);
   F "NativeDigest" "tiff:NativeDigest,omit" (TStr);
   F "X_Artist" "tiff:Artist,omit" (TStr);
   F "X_DateTime" "tiff:DateTime,omit" (t_xmp_Date);
   F "X_Software" "tiff:Software,omit" (TStr);
   F "X_ImageDescription" "tiff:ImageDescription,omit" (t_xmp_AltString);
   F "X_Copyright" "tiff:Copyright,omit" (t_xmp_AltString)].
Definition t_tiff_TiffInfo : ty X := TStruct (StructInfo _ None false) (fields fs_tiff_TiffInfo).
(* models/xmp_base/types.go:51-54 Has reading and writing methods of its own, which are not described. *)
Definition t_xmpbase_Identifier : ty X := special.
(* models/xmp_base/types.go:111 *)
Definition t_xmpbase_IdentifierArray : ty X := TArr (ArrInfo _ "Bag" true (None) true) (t_xmpbase_Identifier).
(* models/xmp_base/types.go:23 *)
Definition t_xmpbase_Rating : ty X := TInt 64.
(* models/xmp_base/types.go:170-175. IsZero: 177-179. MarshalXMP: 181-187. *)
Definition fs_xmpbase_Thumbnail : raw := [
   F "Format" "xmpGImg:format" (TStr);
   F "Width" "xmpGImg:height" (TInt 64);
   F "Height" "xmpGImg:width" (TInt 64);
   F "Image" "xmpGImg:image" (TBytes)].
Definition t_xmpbase_Thumbnail : ty X := TStruct (StructInfo _ (Some (all_zero fs_xmpbase_Thumbnail ["Format"; "Width"; "Height"; "Image"])) true) (fields fs_xmpbase_Thumbnail).
(* models/xmp_base/types.go:189 *)
Definition t_xmpbase_ThumbnailArray : ty X := TArr (ArrInfo _ "Alt" true (None) false) (t_xmpbase_Thumbnail).
(* models/xmp_base/model.go:59-72. *)
Definition fs_xmpbase_XmpBase : raw := [
   F "Advisory" "xmp:Advisory" (t_xmp_StringArray);
   F "BaseURL" "xmp:BaseURL" (t_xmp_Uri);
   F "CreateDate" "xmp:CreateDate" (t_xmp_Date);
   F "CreatorTool" "xmp:CreatorTool" (t_xmp_AgentName);
   F "Identifier" "xmp:Identifier" (t_xmpbase_IdentifierArray);
   F "Label" "xmp:Label" (TStr);
   F "MetadataDate" "xmp:MetadataDate" (t_xmp_Date);
   F "ModifyDate" "xmp:ModifyDate" (t_xmp_Date);
   F "Nickname" "xmp:Nickname" (TStr);
   F "Rating" "xmp:Rating" (t_xmpbase_Rating);
   F "Thumbnails" "xmp:Thumbnails" (t_xmpbase_ThumbnailArray);
   F "Extensions" "xmp:extension" (t_xmp_NamedExtensionArray)].
Definition t_xmpbase_XmpBase : ty X := TStruct (StructInfo _ None false) (fields fs_xmpbase_XmpBase).
(* models/xmp_bj/types.go:23-27. IsZero: 29-31. MarshalXMP: 33-39. *)
Definition fs_xmpbj_Job : raw := [
   F "ID" "stJob:id,attr" (TStr);
   F "Name" "stJob:name,attr" (TStr);
   F "Url" "stJob:url,attr" (t_xmp_Uri)].
Definition t_xmpbj_Job : ty X := TStruct (StructInfo _ (Some (all_zero fs_xmpbj_Job ["ID"; "Name"; "Url"])) true) (fields fs_xmpbj_Job).
(* models/xmp_bj/types.go:41 *)
Definition t_xmpbj_JobArray : ty X := TArr (ArrInfo _ "Bag" true None false) (TPtr (t_xmpbj_Job)).
(* models/xmp_bj/model.go:53-55. *)
Definition fs_xmpbj_JobTicket : raw := [
   F "JobRef" "xmpBJ:JobRef" (t_xmpbj_JobArray)].
Definition t_xmpbj_JobTicket : ty X := TStruct (StructInfo _ None false) (fields fs_xmpbj_JobTicket).
(* models/xmp_dm/types.go:579-587 Has reading and writing methods of its own, which are not described. *)
Definition t_xmpdm_Timecode : ty X := special.
(* models/xmp_dm/enum.go:30 *)
Definition t_xmpdm_AudioChannelType : ty X := TStr.
(* models/xmp_dm/enum.go:42 *)
Definition t_xmpdm_AudioSampleType : ty X := TStr.
(* models/xmp_dm/types.go:502-505. IsZero: 507-509. *)
Definition fs_xmpdm_MediaTime : raw := [
   F "Scale" "xmpDM:scale,attr" (t_xmp_Rational);
   F "Value" "xmpDM:value,attr" (TInt 64)].
Definition t_xmpdm_MediaTime : ty X := TStruct (StructInfo _ (Some media_time_zero) false) (fields fs_xmpdm_MediaTime).
(* models/xmp_dm/types.go:247-251. IsZero: 253-255. *)
Definition fs_xmpdm_BeatSpliceStretch : raw := [
   F "RiseInDecibel" "xmpDM:riseInDecibel,attr" (TText (cdc "float64"));
   F "RiseInTimeDuration" "xmpDM:riseInTimeDuration" (t_xmpdm_MediaTime);
   F "UseFileBeatsMarker" "xmpDM:useFileBeatsMarker,attr" (t_xmp_Bool)].
Definition t_xmpdm_BeatSpliceStretch : ty X := TStruct (StructInfo _ (Some (all_zero fs_xmpdm_BeatSpliceStretch ["RiseInDecibel"; "RiseInTimeDuration"; "UseFileBeatsMarker"])) false) (fields fs_xmpdm_BeatSpliceStretch).
(* models/xmp_dm/enum.go:56 *)
Definition t_xmpdm_CameraAngle : ty X := TStr.
(* models/xmp_dm/enum.go:71 *)
Definition t_xmpdm_CameraMove : ty X := TStr.
(* models/xmp_dm/types.go:459-466. *)
Definition fs_xmpdm_Media : raw := [
   F "Duration" "xmpDM:duration" (t_xmpdm_MediaTime);
   F "Managed" "xmpDM:managed,attr" (t_xmp_Bool);
   F "Path" "xmpDM:path,attr" (t_xmp_Uri);
   F "StartTime" "xmpDM:startTime" (t_xmpdm_MediaTime);
   F "Track" "xmpDM:track,attr" (TStr);
   F "WebStatement" "xmpDM:webStatement" (t_xmp_Uri)].
Definition t_xmpdm_Media : ty X := TStruct (StructInfo _ None false) (fields fs_xmpdm_Media).
(* models/xmp_dm/types.go:468 *)
Definition t_xmpdm_MediaArray : ty X := TArr (ArrInfo _ "Bag" true (None) false) (t_xmpdm_Media).
(* models/xmp_dm/enum.go:95 *)
Definition t_xmpdm_MusicalKey : ty X := TStr.
(* models/xmp_dm/types.go:373-385. IsZero: 387-399. *)
Definition fs_xmpdm_Marker : raw := [
   F "Comment" "xmpDM:comment,attr" (TStr);
   F "CuePointParams" "xmpDM:cuePointParams" (t_xmpdm_CuePointParamArray);
   F "CuePointType" "xmpDM:cuePointType,attr" (TStr);
   F "Duration" "xmpDM:duration,attr" (t_xmpdm_FrameCount);
   F "Location" "xmpDM:location" (t_xmp_Uri);
   F "Name" "xmpDM:name,attr" (TStr);
   F "Probability" "xmpDM:probability,attr" (TText (cdc "float64"));
   F "Speaker" "xmpDM:speaker,attr" (TStr);
   F "StartTime" "xmpDM:startTime,attr" (t_xmpdm_FrameCount);
   F "Target" "xmpDM:target,attr" (TStr);
   F "Types" "xmpDM:type" (t_xmpdm_MarkerTypeList)].
Definition t_xmpdm_Marker : ty X := TStruct (StructInfo _ (Some (all_zero fs_xmpdm_Marker ["Comment"; "CuePointParams"; "CuePointType"; "Duration"; "Location"; "Name"; "Probability"; "Speaker"; "StartTime"; "Target"; "Types"])) false) (fields fs_xmpdm_Marker).
(* models/xmp_dm/types.go:401 *)
Definition t_xmpdm_MarkerList : ty X := TArr (ArrInfo _ "Seq" true (None) false) (t_xmpdm_Marker).
(* models/xmp_dm/enum.go:241 *)
Definition t_xmpdm_FileType : ty X := TStr.
(* models/xmp_dm/types.go:483-486. IsZero: 488-490. *)
Definition fs_xmpdm_ProjectLink : raw := [
   F "Path" "xmpDM:path" (t_xmp_Uri);
   F "Type" "xmpDM:type,attr" (t_xmpdm_FileType)].
Definition t_xmpdm_ProjectLink : ty X := TStruct (StructInfo _ (Some (all_zero fs_xmpdm_ProjectLink ["Path"; "Type"])) false) (fields fs_xmpdm_ProjectLink).
(* models/xmp_dm/enum.go:123 *)
Definition t_xmpdm_PullDown : ty X := TStr.
(* models/xmp_dm/enum.go:232 *)
Definition t_xmpdm_Quality : ty X := TStr.
(* models/xmp_dm/types.go:493-495. IsZero: 497-499. *)
Definition fs_xmpdm_ResampleStretch : raw := [
   F "Quality" "xmpDM:quality,attr" (t_xmpdm_Quality)].
Definition t_xmpdm_ResampleStretch : ty X := TStruct (StructInfo _ (Some (all_zero fs_xmpdm_ResampleStretch ["Quality"])) false) (fields fs_xmpdm_ResampleStretch).
(* models/xmp_dm/enum.go:113 *)
Definition t_xmpdm_MusicalScale : ty X := TStr.
(* models/xmp_dm/enum.go:139 *)
Definition t_xmpdm_ShotSize : ty X := TStr.
(* models/xmp_dm/enum.go:152 *)
Definition t_xmpdm_StretchMode : ty X := TStr.
(* models/xmp_dm/types.go:710-714. IsZero: 716-718. *)
Definition fs_xmpdm_TimeScaleStretch : raw := [
   F "Overlap" "xmpDM:frameOverlappingPercentage,attr" (TText (cdc "float64"));
   F "FrameSize" "xmpDM:frameSize,attr" (TText (cdc "float64"));
   F "Quality" "xmpDM:quality,attr" (t_xmpdm_Quality)].
Definition t_xmpdm_TimeScaleStretch : ty X := TStruct (StructInfo _ (Some (all_zero fs_xmpdm_TimeScaleStretch ["Overlap"; "FrameSize"; "Quality"])) false) (fields fs_xmpdm_TimeScaleStretch).
(* models/xmp_dm/enum.go:163 *)
Definition t_xmpdm_TimeSignature : ty X := TStr.
(* models/xmp_dm/types.go:316-319 *)
Definition t_xmpdm_FrameRate : ty X := TText (cdc "xmpdm.FrameRate").
(* models/xmp_dm/types.go:721-726. *)
Definition fs_xmpdm_Track : raw := [
   F "FrameRate" "xmpDM:frameRate,attr" (t_xmpdm_FrameRate);
   F "Markers" "xmpDM:markers" (t_xmpdm_MarkerList);
   F "Name" "xmpDM:trackName,attr" (TStr);
   F "Type" "xmpDM:trackType,attr" (t_xmpdm_MarkerTypeList)].
Definition t_xmpdm_Track : ty X := TStruct (StructInfo _ None false) (fields fs_xmpdm_Track).
(* models/xmp_dm/types.go:728 *)
Definition t_xmpdm_TrackArray : ty X := TArr (ArrInfo _ "Bag" true (None) false) (t_xmpdm_Track).
(* models/xmp_dm/enum.go:177 *)
Definition t_xmpdm_AlphaMode : ty X := TStr.
(* models/xmp_tpg/types.go:140 *)
Definition t_xmptpg_ColorantMode : ty X := TStr.
(* models/xmp_tpg/types.go:148 *)
Definition t_xmptpg_ColorType : ty X := TStr.
(* models/xmp_tpg/types.go:109-123. IsZero: 125-130. MarshalXMP: 132-138. *)
Definition fs_xmptpg_Colorant : raw := [
   F "A" "xmpG:A,attr" (TInt 64);
   F "B" "xmpG:B,attr" (TInt 64);
   F "L" "xmpG:L,attr" (TText (cdc "float64"));
   F "Black" "xmpG:black,attr" (TText (cdc "float64"));
   F "Cyan" "xmpG:cyan,attr" (TText (cdc "float64"));
   F "Magenta" "xmpG:magenta,attr" (TText (cdc "float64"));
   F "Yellow" "xmpG:yellow,attr" (TText (cdc "float64"));
   F "Blue" "xmpG:blue,attr" (TInt 64);
   F "Green" "xmpG:green,attr" (TInt 64);
   F "Red" "xmpG:red,attr" (TInt 64);
   F "Mode" "xmpG:mode,attr" (t_xmptpg_ColorantMode);
   F "SwatchName" "xmpG:swatchName,attr" (TStr);
   F "Type" "xmpG:type,attr" (t_xmptpg_ColorType)].
Definition t_xmptpg_Colorant : ty X := TStruct (StructInfo _ (Some (all_zero fs_xmptpg_Colorant ["A"; "B"; "L"; "Black"; "Cyan"; "Magenta"; "Yellow"; "Blue"; "Green"; "Red"; "Mode"; "Type"; "SwatchName"])) true) (fields fs_xmptpg_Colorant).
(* models/xmp_dm/enum.go:186 *)
Definition t_xmpdm_ColorSpace : ty X := TStr.
(* models/xmp_dm/enum.go:195 *)
Definition t_xmpdm_FieldOrder : ty X := TStr.
(* models/xmp_dm/types.go:281 *)
Definition t_xmpdm_VideoFrameRate : ty X := TText (cdc "xmpdm.VideoFrameRate").
(* models/xmp_tpg/types.go:64 *)
Definition t_xmptpg_Unit : ty X := TStr.
(* models/xmp_tpg/types.go:46-50. IsZero: 52-54. MarshalXMP: 56-62. *)
Definition fs_xmptpg_Dimensions : raw := [
   F "H" "stDim:h,attr" (TText (cdc "float32"));
   F "W" "stDim:w,attr" (TText (cdc "float32"));
   F "Unit" "stDim:unit,attr" (t_xmptpg_Unit)].
Definition t_xmptpg_Dimensions : ty X := TStruct (StructInfo _ (Some (all_zero fs_xmptpg_Dimensions ["H"; "W"; "Unit"])) true) (fields fs_xmptpg_Dimensions).
(* models/xmp_dm/enum.go:204 *)
Definition t_xmpdm_PixelDepth : ty X := TStr.
(* models/xmp_dm/model.go:52-128. *)
Definition fs_xmpdm_XmpDM : raw := [
   F "AbsPeakAudioFilePath" "xmpDM:absPeakAudioFilePath" (TStr);
   F "Album" "xmpDM:album" (TStr);
   F "AltTapeName" "xmpDM:altTapeName" (TStr);
   F "AltTimecode" "xmpDM:altTimecode" (t_xmpdm_Timecode);
   F "Artist" "xmpDM:artist" (TStr);
   F "AudioChannelType" "xmpDM:audioChannelType" (t_xmpdm_AudioChannelType);
   F "AudioCompressor" "xmpDM:audioCompressor" (TStr);
   F "AudioSampleRate" "xmpDM:audioSampleRate" (TText (cdc "float64"));
   F "AudioSampleType" "xmpDM:audioSampleType" (t_xmpdm_AudioSampleType);
   F "BeatSpliceParams" "xmpDM:beatSpliceParams" (t_xmpdm_BeatSpliceStretch);
   F "CameraAngle" "xmpDM:cameraAngle" (t_xmpdm_CameraAngle);
   F "CameraLabel" "xmpDM:cameraLabel" (TStr);
   F "CameraModel" "xmpDM:cameraModel" (TStr);
   F "CameraMove" "xmpDM:cameraMove" (t_xmpdm_CameraMove);
   F "Client" "xmpDM:client" (TStr);
   F "Comment" "xmpDM:comment" (TStr);
   F "Composer" "xmpDM:composer" (TStr);
   F "ContributedMedia" "xmpDM:contributedMedia" (t_xmpdm_MediaArray);
   F "Director" "xmpDM:director" (TStr);
   F "DirectorPhotography" "xmpDM:directorPhotography" (TStr);
   F "Duration" "xmpDM:duration" (t_xmpdm_MediaTime);
   F "Engineer" "xmpDM:engineer" (TStr);
   F "FileDataRate" "xmpDM:fileDataRate" (t_xmp_Rational);
   F "Genre" "xmpDM:genre" (TStr);
   F "Good" "xmpDM:good" (t_xmp_Bool);
   F "Instrument" "xmpDM:instrument" (TStr);
   F "IntroTime" "xmpDM:introTime" (t_xmpdm_MediaTime);
   F "Key" "xmpDM:key" (t_xmpdm_MusicalKey);
   F "LogComment" "xmpDM:logComment" (TStr);
   F "Loop" "xmpDM:loop" (t_xmp_Bool);
   F "NumberOfBeats" "xmpDM:numberOfBeats" (TText (cdc "float64"));
   F "Markers" "xmpDM:markers" (t_xmpdm_MarkerList);
   F "OutCue" "xmpDM:outCue" (t_xmpdm_MediaTime);
   F "ProjectName" "xmpDM:projectName" (TStr);
   F "ProjectRef" "xmpDM:projectRef" (t_xmpdm_ProjectLink);
   F "PullDown" "xmpDM:pullDown" (t_xmpdm_PullDown);
   F "RelativePeakAudioFilePath" "xmpDM:relativePeakAudioFilePath" (t_xmp_Uri);
   F "RelativeTimestamp" "xmpDM:relativeTimestamp" (t_xmpdm_MediaTime);
   F "ReleaseDate" "xmpDM:releaseDate" (t_xmp_Date);
   F "ResampleParams" "xmpDM:resampleParams" (t_xmpdm_ResampleStretch);
   F "ScaleType" "xmpDM:scaleType" (t_xmpdm_MusicalScale);
   F "Scene" "xmpDM:scene" (TStr);
   F "ShotDate" "xmpDM:shotDate" (t_xmp_Date);
   F "ShotDay" "xmpDM:shotDay" (TStr);
   F "ShotLocation" "xmpDM:shotLocation" (TStr);
   F "ShotName" "xmpDM:shotName" (TStr);
   F "ShotNumber" "xmpDM:shotNumber" (TStr);
   F "ShotSize" "xmpDM:shotSize" (t_xmpdm_ShotSize);
   F "SpeakerPlacement" "xmpDM:speakerPlacement" (TStr);
   F "StartTimecode" "xmpDM:startTimecode" (t_xmpdm_Timecode);
   F "StretchMode" "xmpDM:stretchMode" (t_xmpdm_StretchMode);
   F "TakeNumber" "xmpDM:takeNumber" (TInt 64);
   F "TapeName" "xmpDM:tapeName" (TStr);
   F "Tempo" "xmpDM:tempo" (TText (cdc "float64"));
   F "TimeScaleParams" "xmpDM:timeScaleParams" (t_xmpdm_TimeScaleStretch);
   F "TimeSignature" "xmpDM:timeSignature" (t_xmpdm_TimeSignature);
   F "TrackNumber" "xmpDM:trackNumber" (TInt 64);
   F "Tracks" "xmpDM:Tracks" (t_xmpdm_TrackArray);
   F "VideoAlphaMode" "xmpDM:videoAlphaMode" (t_xmpdm_AlphaMode);
   F "VideoAlphaPremultipleColor" "xmpDM:videoAlphaPremultipleColor" (t_xmptpg_Colorant);
   F "VideoAlphaUnityIsTransparent" "xmpDM:videoAlphaUnityIsTransparent" (t_xmp_Bool);
   F "VideoColorSpace" "xmpDM:videoColorSpace" (t_xmpdm_ColorSpace);
   F "VideoCompressor" "xmpDM:videoCompressor" (TStr);
   F "VideoFieldOrder" "xmpDM:videoFieldOrder" (t_xmpdm_FieldOrder);
   F "VideoFrameRate" "xmpDM:videoFrameRate" (t_xmpdm_VideoFrameRate);
   F "VideoFrameSize" "xmpDM:videoFrameSize" (t_xmptpg_Dimensions);
   F "VideoPixelDepth" "xmpDM:videoPixelDepth" (t_xmpdm_PixelDepth);
   F "VideoPixelAspectRatio" "xmpDM:videoPixelAspectRatio" (t_xmp_Rational);
   F "PartOfCompilation" "xmpDM:partOfCompilation" (t_xmp_Bool);
   F "Lyrics" "xmpDM:lyrics" (TStr);
   F "DiscNumber" "xmpDM:discNumber" (TInt 64);
   F "StartTimeScale" "xmpDM:startTimeScale" (TInt 64);
   F "StartTimeSampleSize" "xmpDM:startTimeSampleSize" (TInt 64)].
Definition t_xmpdm_XmpDM : ty X := TStruct (StructInfo _ None false) (fields fs_xmpdm_XmpDM).
(* xmp/xmp_types.go:466 *)
Definition t_xmp_UriArray : ty X := TArr (ArrInfo _ "Bag" true (None) true) (t_xmp_Uri).
(* xmp/xmp_types.go:308 *)
Definition t_xmp_GUID : ty X := TText (cdc "xmp.GUID").
(* models/xmp_dm/types.go:36-40 *)
Definition t_xmpdm_Part : ty X := TText (cdc "xmpdm.Part").
(* models/xmp_dm/types.go:172 *)
Definition t_xmpdm_MaskType : ty X := TStr.
(* models/xmp_dm/enum.go:18 *)
Definition t_xmpdm_RenditionClass : ty X := TStr.
(* models/xmp_mm/types.go:24-42. IsZero: 44-61. MarshalXMP: 63-69. *)
Definition fs_xmpmm_ResourceRef : raw := [
   F "AlternatePaths" "stRef:alternatePaths" (t_xmp_UriArray);
   F "OriginalDocumentID" "stRef:originalDocumentID,attr" (t_xmp_GUID);
   F "DocumentID" "stRef:documentID,attr" (t_xmp_GUID);
   F "FilePath" "stRef:filePath,attr" (t_xmp_Uri);
   F "FromPart" "stRef:fromPart,attr" (TPtr (t_xmpdm_Part));
   F "InstanceID" "stRef:instanceID,attr" (t_xmp_GUID);
   F "LastModifyDate" "stRef:lastModifyDate,attr" (t_xmp_Date);
   F "Manager" "stRef:manager,attr" (t_xmp_AgentName);
   F "ManagerVariant" "stRef:managerVariant,attr" (TStr);
   F "ManageTo" "stRef:manageTo,attr" (t_xmp_Uri);
   F "ManageUI" "stRef:manageUI,attr" (t_xmp_Uri);
   F "MaskMarkers" "stRef:maskMarkers,attr" (t_xmpdm_MaskType);
   F "PartMapping" "stRef:partMapping,attr" (TStr);
   F "RenditionClass" "stRef:renditionClass,attr" (t_xmpdm_RenditionClass);
   F "RenditionParams" "stRef:renditionParams,attr" (TStr);
   F "ToPart" "stRef:toPart,attr" (TPtr (t_xmpdm_Part));
   F "VersionID" "stRef:versionID,attr" (TStr)].
Definition t_xmpmm_ResourceRef : ty X := TStruct (StructInfo _ (Some (all_zero fs_xmpmm_ResourceRef ["AlternatePaths"; "OriginalDocumentID"; "DocumentID"; "FilePath"; "FromPart"; "InstanceID"; "LastModifyDate"; "Manager"; "ManagerVariant"; "ManageTo"; "MaskMarkers"; "PartMapping"; "RenditionClass"; "RenditionParams"; "ToPart"; "VersionID"])) true) (fields fs_xmpmm_ResourceRef).
(* models/xmp_mm/types.go:148 *)
Definition t_xmpmm_ActionType : ty X := TStr.
(* models/xmp_dm/types.go:129 *)
Definition t_xmpdm_PartList : ty X := TArr (ArrInfo _ "Seq" false (Some (cdc "xmpdm.PartList")) false) (t_xmpdm_Part).
(* models/xmp_mm/types.go:125-132. *)
Definition fs_xmpmm_ResourceEvent : raw := [
   F "Action" "stEvt:action,attr" (t_xmpmm_ActionType);
   F "Changed" "stEvt:changed,attr" (t_xmpdm_PartList);
   F "InstanceID" "stEvt:instanceID,attr" (t_xmp_GUID);
   F "Parameters" "stEvt:parameters,attr" (TStr);
   F "SoftwareAgent" "stEvt:softwareAgent,attr" (t_xmp_AgentName);
   F "When" "stEvt:when,attr" (t_xmp_Date)].
Definition t_xmpmm_ResourceEvent : ty X := TStruct (StructInfo _ None false) (fields fs_xmpmm_ResourceEvent).
(* models/xmp_mm/types.go:134 *)
Definition t_xmpmm_ResourceEventArray : ty X := TArr (ArrInfo _ "Seq" true None false) (TPtr (t_xmpmm_ResourceEvent)).
(* models/xmp_mm/types.go:71 *)
Definition t_xmpmm_ResourceRefArray : ty X := TArr (ArrInfo _ "Bag" true None false) (TPtr (t_xmpmm_ResourceRef)).
(* xmp/xmp_ext.go:113 *)
Definition t_xmp_ExtensionArray : ty X := TArr (ArrInfo _ "Bag" true None false) (TPtr (t_xmp_Extension)).
(* models/xmp_mm/types.go:102-108. *)
Definition fs_xmpmm_StVersion : raw := [
   F "Comments" "stVer:comments,attr" (TStr);
   F "Event" "stVer:event" (t_xmpmm_ResourceEvent);
   F "Modifier" "stVer:modifier,attr" (TStr);
   F "ModifyDate" "stVer:modifyDate,attr" (t_xmp_Date);
   F "Version" "stVer:version,attr" (TStr)].
Definition t_xmpmm_StVersion : ty X := TStruct (StructInfo _ None false) (fields fs_xmpmm_StVersion).
(* models/xmp_mm/types.go:110 *)
Definition t_xmpmm_StVersionArray : ty X := TArr (ArrInfo _ "Bag" true None false) (TPtr (t_xmpmm_StVersion)).
(* models/xmp_mm/model.go:58-75. *)
Definition fs_xmpmm_XmpMM : raw := [
   F "DerivedFrom" "xmpMM:DerivedFrom" (TPtr (t_xmpmm_ResourceRef));
   F "DocumentID" "xmpMM:DocumentID" (t_xmp_GUID);
   F "History" "xmpMM:History" (t_xmpmm_ResourceEventArray);
   F "Ingredients" "xmpMM:Ingredients" (t_xmpmm_ResourceRefArray);
   F "InstanceID" "xmpMM:InstanceID" (t_xmp_GUID);
   F "ManagedFrom" "xmpMM:ManagedFrom" (TPtr (t_xmpmm_ResourceRef));
   F "Manager" "xmpMM:Manager" (t_xmp_AgentName);
   F "ManageTo" "xmpMM:ManageTo" (t_xmp_Uri);
   F "ManageUI" "xmpMM:ManageUI" (t_xmp_Uri);
   F "ManagerVariant" "xmpMM:ManagerVariant" (TStr);
   F "OriginalDocumentID" "xmpMM:OriginalDocumentID" (t_xmp_GUID);
   F "Pantry" "xmpMM:Pantry,omitempty" (t_xmp_ExtensionArray);
   F "RenditionClass" "xmpMM:RenditionClass" (t_xmpdm_RenditionClass);
   F "RenditionParams" "xmpMM:RenditionParams" (TStr);
   F "VersionID" "xmpMM:VersionID" (TStr);
   F "Versions" "xmpMM:Versions" (t_xmpmm_StVersionArray)].
Definition t_xmpmm_XmpMM : ty X := TStruct (StructInfo _ None false) (fields fs_xmpmm_XmpMM).
(* models/xmp_rights/model.go:51-57. *)
Definition fs_xmprights_XmpRights : raw := [
   F "Certificate" "xmpRights:Certificate" (TStr);
   F "Marked" "xmpRights:Marked" (t_xmp_Bool);
   F "Owner" "xmpRights:Owner" (t_xmp_StringArray);
   F "UsageTerms" "xmpRights:UsageTerms" (t_xmp_AltString);
   F "WebStatement" "xmpRights:WebStatement" (TStr)].
Definition t_xmprights_XmpRights : ty X := TStruct (StructInfo _ None false) (fields fs_xmprights_XmpRights).
(* models/xmp_tpg/types.go:155 *)
Definition t_xmptpg_ColorantList : ty X := TArr (ArrInfo _ "Seq" true (None) false) (t_xmptpg_Colorant).
(* models/xmp_tpg/types.go:86 *)
Definition t_xmptpg_FontType : ty X := TStr.
(* models/xmp_tpg/types.go:75-84. *)
Definition fs_xmptpg_Font : raw := [
   F "ChildFontFiles" "stFnt:childFontFiles" (t_xmp_StringArray);
   F "Composite" "stFnt:composite,attr" (t_xmp_Bool);
   F "FontFace" "stFnt:fontFace,attr" (TStr);
   F "FontFamily" "stFnt:fontFamily,attr" (TStr);
   F "FontFileName" "stFnt:fontFileName,attr" (TStr);
   F "FontName" "stFnt:fontName,attr" (TStr);
   F "FontType" "stFnt:fontType,attr" (t_xmptpg_FontType);
   F "VersionString" "stFnt:versionString,attr" (TStr)].
Definition t_xmptpg_Font : ty X := TStruct (StructInfo _ None false) (fields fs_xmptpg_Font).
(* models/xmp_tpg/types.go:94 *)
Definition t_xmptpg_FontArray : ty X := TArr (ArrInfo _ "Bag" true (None) false) (t_xmptpg_Font).
(* models/xmp_tpg/types.go:169-173. *)
Definition fs_xmptpg_SwatchGroup : raw := [
   F "GroupName" "xmpG:groupName" (TStr);
   F "GroupType" "xmpG:groupType" (TInt 64);
   F "Colorants" "xmpG:Colorants" (t_xmptpg_ColorantList)].
Definition t_xmptpg_SwatchGroup : ty X := TStruct (StructInfo _ None false) (fields fs_xmptpg_SwatchGroup).
(* models/xmp_tpg/types.go:175 *)
Definition t_xmptpg_SwatchGroupList : ty X := TArr (ArrInfo _ "Seq" true (None) false) (t_xmptpg_SwatchGroup).
(* models/xmp_tpg/model.go:56-65. *)
Definition fs_xmptpg_PagedText : raw := [
   F "Colorants" "xmpTPg:Colorants" (t_xmptpg_ColorantList);
   F "Fonts" "xmpTPg:Fonts" (t_xmptpg_FontArray);
   F "MaxPageSize" "xmpTPg:MaxPageSize" (t_xmptpg_Dimensions);
   F "NPages" "xmpTPg:NPages,attr" (TInt 64);
   F "PlateNames" "xmpTPg:PlateNames" (t_xmp_StringArray);
   F "HasVisibleTransparency" "xmpTPg:HasVisibleTransparency" (t_xmp_Bool);
   F "HasVisibleOverprint" "xmpTPg:HasVisibleOverprint" (t_xmp_Bool);
   F "SwatchGroups" "xmpTPg:SwatchGroups" (t_xmptpg_SwatchGroupList)].
Definition t_xmptpg_PagedText : ty X := TStruct (StructInfo _ None false) (fields fs_xmptpg_PagedText).

(* ---- namespaces and models ---- *)
(* models/cc/model.go:30 *)
Definition ns_cc_NsCC : namespace := Namespace "cc" "http://creativecommons.org/ns#" (Some 1).
(* models/crs/model.go:24 *)
Definition ns_crs_NsCrs : namespace := Namespace "crs" "http://ns.adobe.com/camera-raw-settings/1.0/" (Some 2).
(* models/dc/model.go:24 *)
Definition ns_dc_NsDc : namespace := Namespace "dc" "http://purl.org/dc/elements/1.1/" (Some 3).
(* models/dji/dji.go:24 *)
Definition ns_dji_NsDJI : namespace := Namespace "drone-dji" "http://www.dji.com/drone-dji/1.0/" (Some 4).
(* models/exif/model.go:41 *)
Definition ns_exif_NsExif : namespace := Namespace "exif" "http://ns.adobe.com/exif/1.0/" (Some 5).
(* models/exif/model.go:42 *)
Definition ns_exif_NsExifEX : namespace := Namespace "exifEX" "http://cipa.jp/exif/1.0/" (Some 5).
(* models/exif/model.go:43 *)
Definition ns_exif_NsExifAux : namespace := Namespace "aux" "http://ns.adobe.com/exif/1.0/aux/" (Some 5).
(* models/id3/model.go:45 *)
Definition ns_id3_NsID3 : namespace := Namespace "id3" "http://id3.org/ns/2.4/" (Some 6).
(* models/itunes/model.go:27 *)
Definition ns_itunes_NsITunes : namespace := Namespace "iTunes" "http://ns.apple.com/itunes/1.0/" (Some 7).
(* models/ixml/model.go:42 *)
Definition ns_ixml_NsIXML : namespace := Namespace "iXML" "http://ns.adobe.com/ixml/1.0/" (Some 8).
(* models/mp4/model.go:25 *)
Definition ns_mp4_NsMP4 : namespace := Namespace "mp4" "http://ns.apple.com/quicktime/mp4/1.0/" (Some 9).
(* models/pdf/model.go:26 *)
Definition ns_pdf_NsPDF : namespace := Namespace "pdf" "http://ns.adobe.com/pdf/1.3/" (Some 10).
(* models/pm/model.go:31 *)
Definition ns_pm_NsPm : namespace := Namespace "photomechanic" "http://ns.camerabits.com/photomechanic/1.0/" (Some 11).
(* models/ps/model.go:27 *)
Definition ns_ps_NsPhotoshop : namespace := Namespace "photoshop" "http://ns.adobe.com/photoshop/1.0/" (Some 12).
(* models/qt/model.go:63 *)
Definition ns_qt_NsQuicktime : namespace := Namespace "qt" "http://ns.apple.com/quicktime/1.0/" (Some 13).
(* models/riff/model.go:27 *)
Definition ns_riff_NsRiff : namespace := Namespace "riffinfo" "http://ns.adobe.com/riff/info" (Some 14).
(* models/tiff/model.go:29 *)
Definition ns_tiff_NsTiff : namespace := Namespace "tiff" "http://ns.adobe.com/tiff/1.0/" (Some 15).
(* models/xmp_base/model.go:25 *)
Definition ns_xmpbase_NsXmp : namespace := Namespace "xmp" "http://ns.adobe.com/xap/1.0/" (Some 16).
(* models/xmp_base/model.go:27 *)
Definition ns_xmpbase_nsXmpIdq : namespace := Namespace "xmpidq" "http://ns.adobe.com/xmp/Identifier/qual/1.0/" None.
(* models/xmp_base/model.go:28 *)
Definition ns_xmpbase_nsXmpG : namespace := Namespace "xmpG" "http://ns.adobe.com/xap/1.0/g/" None.
(* models/xmp_base/model.go:29 *)
Definition ns_xmpbase_nsXmpGImg : namespace := Namespace "xmpGImg" "http://ns.adobe.com/xap/1.0/g/img/" None.
(* models/xmp_bj/model.go:24 *)
Definition ns_xmpbj_NsXmpBJ : namespace := Namespace "xmpBJ" "http://ns.adobe.com/xap/1.0/bj/" (Some 17).
(* models/xmp_bj/model.go:25 *)
Definition ns_xmpbj_nsStJob : namespace := Namespace "stJob" "http://ns.adobe.com/xap/1.0/sType/Job#" None.
(* models/xmp_dm/model.go:25 *)
Definition ns_xmpdm_NsXmpDM : namespace := Namespace "xmpDM" "http://ns.adobe.com/xmp/1.0/DynamicMedia/" (Some 18).
(* models/xmp_mm/model.go:25 *)
Definition ns_xmpmm_NsXmpMM : namespace := Namespace "xmpMM" "http://ns.adobe.com/xap/1.0/mm/" (Some 19).
(* models/xmp_mm/model.go:26 *)
Definition ns_xmpmm_nsStEvt : namespace := Namespace "stEvt" "http://ns.adobe.com/xap/1.0/sType/ResourceEvent#" None.
(* models/xmp_mm/model.go:27 *)
Definition ns_xmpmm_nsStRef : namespace := Namespace "stRef" "http://ns.adobe.com/xap/1.0/sType/ResourceRef#" None.
(* models/xmp_mm/model.go:28 *)
Definition ns_xmpmm_nsStVer : namespace := Namespace "stVer" "http://ns.adobe.com/xap/1.0/sType/Version#" None.
(* models/xmp_rights/model.go:24 *)
Definition ns_xmprights_NsXmpRights : namespace := Namespace "xmpRights" "http://ns.adobe.com/xap/1.0/rights/" (Some 20).
(* models/xmp_tpg/model.go:25 *)
Definition ns_xmptpg_NsXmpTPg : namespace := Namespace "xmpTPg" "http://ns.adobe.com/xap/1.0/t/pg/" (Some 21).
(* models/xmp_tpg/model.go:26 *)
Definition ns_xmptpg_nsStDim : namespace := Namespace "stDim" "http://ns.adobe.com/xap/1.0/sType/Dimensions#" None.
(* models/xmp_tpg/model.go:27 *)
Definition ns_xmptpg_nsStFnt : namespace := Namespace "stFnt" "http://ns.adobe.com/xap/1.0/sType/Font#" None.
(* models/digikam/model.go:11 *)
Definition ns_digikam_NsDk : namespace := Namespace "digiKam" "http://www.digikam.org/ns/1.0/" (Some 22).
(* Namespaces: models/cc/model.go:68-70. Can: 64-66. *)
Definition k_cc_CC : mkind X := MKind [ns_cc_NsCC] (fun p => p =? "cc") (fields fs_cc_CC)
  (map (fun f => zero (snd f)) (fields fs_cc_CC)).
(* Namespaces: models/crs/model.go:256-258. Can: 252-254. *)
Definition k_crs_CameraRawInfo : mkind X := MKind [ns_crs_NsCrs] (fun p => p =? "crs") (fields fs_crs_CameraRawInfo)
  (map (fun f => zero (snd f)) (fields fs_crs_CameraRawInfo)).
(* Namespaces: models/dc/model.go:76-78. Can: 72-74. *)
Definition k_dc_DublinCore : mkind X := MKind [ns_dc_NsDc] (fun p => p =? "dc") (fields fs_dc_DublinCore)
  (map (fun f => zero (snd f)) (fields fs_dc_DublinCore)).
(* Namespaces: models/digikam/model.go:53-55. Can: 49-51. *)
Definition k_digikam_Digikam : mkind X := MKind [ns_digikam_NsDk] (fun p => p =? "digiKam") (fields fs_digikam_Digikam)
  (map (fun f => zero (snd f)) (fields fs_digikam_Digikam)).
(* Namespaces: models/dji/dji.go:51-53. Can: 55-57. *)
Definition k_dji_DJI : mkind X := MKind [ns_dji_NsDJI] (fun p => p =? "drone-dji") (fields fs_dji_DJI)
  (map (fun f => zero (snd f)) (fields fs_dji_DJI)).
(* Namespaces: models/exif/model.go:254-256. Can: 258-260. *)
Definition k_exif_ExifInfo : mkind X := MKind [ns_exif_NsExif] (fun p => p =? "exif") (fields fs_exif_ExifInfo)
  (map (fun f => zero (snd f)) (fields fs_exif_ExifInfo)).
(* Namespaces: models/exif/model.go:439-441. Can: 443-445. *)
Definition k_exif_ExifEXInfo : mkind X := MKind [ns_exif_NsExifEX] (fun p => p =? "exifEX") (fields fs_exif_ExifEXInfo)
  (map (fun f => zero (snd f)) (fields fs_exif_ExifEXInfo)).
(* Namespaces: models/exif/model.go:506-508. Can: 510-512. *)
Definition k_exif_ExifAuxInfo : mkind X := MKind [ns_exif_NsExifAux] (fun p => p =? "aux") (fields fs_exif_ExifAuxInfo)
  (map (fun f => zero (snd f)) (fields fs_exif_ExifAuxInfo)).
(* Namespaces: models/id3/model.go:75-77. Can: 79-81. *)
Definition k_id3_ID3 : mkind X := MKind [ns_id3_NsID3] (fun p => p =? "id3") (fields fs_id3_ID3)
  (map (fun f => zero (snd f)) (fields fs_id3_ID3)).
(* Namespaces: models/itunes/model.go:54-56. Can: 58-60. *)
Definition k_itunes_ITunesMetadata : mkind X := MKind [ns_itunes_NsITunes] (fun p => p =? "iTunes") (fields fs_itunes_ITunesMetadata)
  (map (fun f => zero (snd f)) (fields fs_itunes_ITunesMetadata)).
(* Namespaces: models/ixml/model.go:97-99. Can: 101-103. NewModel: 49-53, ixmlVersion: 39. *)
Definition k_ixml_IXML : mkind X := MKind [ns_ixml_NsIXML] (fun p => p =? "iXML") (fields fs_ixml_IXML)
  (VStr "2.0" :: tl (map (fun f => zero (snd f)) (fields fs_ixml_IXML))).
(* Namespaces: models/mp4/model.go:57-59. Can: 61-63. *)
Definition k_mp4_MP4Info : mkind X := MKind [ns_mp4_NsMP4] (fun p => p =? "mp4") (fields fs_mp4_MP4Info)
  (map (fun f => zero (snd f)) (fields fs_mp4_MP4Info)).
(* Namespaces: models/pdf/model.go:73-75. Can: 69-71. *)
Definition k_pdf_PDFInfo : mkind X := MKind [ns_pdf_NsPDF] (fun p => p =? "pdf") (fields fs_pdf_PDFInfo)
  (map (fun f => zero (snd f)) (fields fs_pdf_PDFInfo)).
(* Namespaces: models/pm/model.go:62-64. Can: 58-60. *)
Definition k_pm_Photomechanic : mkind X := MKind [ns_pm_NsPm] (fun p => p =? "photomechanic") (fields fs_pm_Photomechanic)
  (map (fun f => zero (snd f)) (fields fs_pm_Photomechanic)).
(* Namespaces: models/ps/model.go:85-87. Can: 81-83. *)
Definition k_ps_PhotoshopInfo : mkind X := MKind [ns_ps_NsPhotoshop] (fun p => p =? "photoshop") (fields fs_ps_PhotoshopInfo)
  (map (fun f => zero (snd f)) (fields fs_ps_PhotoshopInfo)).
(* Namespaces: models/qt/model.go:88-90. Can: 92-94. *)
Definition k_qt_QtInfo : mkind X := MKind [ns_qt_NsQuicktime] (fun p => p =? "qt") (fields fs_qt_QtInfo)
  (map (fun f => zero (snd f)) (fields fs_qt_QtInfo)).
(* Namespaces: models/qt/qt_metadata.go:113-115. Can: 117-119. *)
Definition k_qt_QtMetadata : mkind X := MKind [ns_qt_NsQuicktime] (fun p => p =? "qt") (fields fs_qt_QtMetadata)
  (map (fun f => zero (snd f)) (fields fs_qt_QtMetadata)).
(* Namespaces: models/qt/qt_player.go:36-38. Can: 40-42. *)
Definition k_qt_QtPlayer : mkind X := MKind [ns_qt_NsQuicktime] (fun p => p =? "qt") (fields fs_qt_QtPlayer)
  (map (fun f => zero (snd f)) (fields fs_qt_QtPlayer)).
(* Namespaces: models/qt/qt_proapps.go:74-76. Can: 78-80. *)
Definition k_qt_QtProApps : mkind X := MKind [ns_qt_NsQuicktime] (fun p => p =? "qt") (fields fs_qt_QtProApps)
  (map (fun f => zero (snd f)) (fields fs_qt_QtProApps)).
(* Namespaces: models/qt/qt_userdata.go:168-170. Can: 172-174. *)
Definition k_qt_QtUserdata : mkind X := MKind [ns_qt_NsQuicktime] (fun p => p =? "qt") (fields fs_qt_QtUserdata)
  (map (fun f => zero (snd f)) (fields fs_qt_QtUserdata)).
(* Namespaces: models/riff/model.go:147-149. Can: 151-153. *)
Definition k_riff_RiffInfo : mkind X := MKind [ns_riff_NsRiff] (fun p => p =? "riffinfo") (fields fs_riff_RiffInfo)
  (map (fun f => zero (snd f)) (fields fs_riff_RiffInfo)).
(* Namespaces: models/tiff/model.go:98-100. Can: 94-96. *)
Definition k_tiff_TiffInfo : mkind X := MKind [ns_tiff_NsTiff] (fun p => p =? "tiff") (fields fs_tiff_TiffInfo)
  (map (fun f => zero (snd f)) (fields fs_tiff_TiffInfo)).
(* Namespaces: models/xmp_base/model.go:78-80. Can: 74-76. *)
Definition k_xmpbase_XmpBase : mkind X := MKind [ns_xmpbase_NsXmp] (fun p => p =? "xmp") (fields fs_xmpbase_XmpBase)
  (map (fun f => zero (snd f)) (fields fs_xmpbase_XmpBase)).
(* Namespaces: models/xmp_bj/model.go:61-63. Can: 57-59. *)
Definition k_xmpbj_JobTicket : mkind X := MKind [ns_xmpbj_NsXmpBJ] (fun p => p =? "xmpBJ") (fields fs_xmpbj_JobTicket)
  (map (fun f => zero (snd f)) (fields fs_xmpbj_JobTicket)).
(* Namespaces: models/xmp_dm/model.go:134-136. Can: 130-132. *)
Definition k_xmpdm_XmpDM : mkind X := MKind [ns_xmpdm_NsXmpDM] (fun p => p =? "xmpDM") (fields fs_xmpdm_XmpDM)
  (map (fun f => zero (snd f)) (fields fs_xmpdm_XmpDM)).
(* Namespaces: models/xmp_mm/model.go:81-83. Can: 77-79. *)
Definition k_xmpmm_XmpMM : mkind X := MKind [ns_xmpmm_NsXmpMM] (fun p => p =? "xmpMM") (fields fs_xmpmm_XmpMM)
  (map (fun f => zero (snd f)) (fields fs_xmpmm_XmpMM)).
(* Namespaces: models/xmp_rights/model.go:63-65. Can: 59-61. *)
Definition k_xmprights_XmpRights : mkind X := MKind [ns_xmprights_NsXmpRights] (fun p => p =? "xmpRights") (fields fs_xmprights_XmpRights)
  (map (fun f => zero (snd f)) (fields fs_xmprights_XmpRights)).
(* Namespaces: models/xmp_tpg/model.go:71-73. Can: 67-69. *)
Definition k_xmptpg_PagedText : mkind X := MKind [ns_xmptpg_NsXmpTPg] (fun p => p =? "xmpTPg") (fields fs_xmptpg_PagedText)
  (map (fun f => zero (snd f)) (fields fs_xmptpg_PagedText)).
(* the Register calls of the init functions, in the order of models/import.go *)
Definition library : list reg_op :=
  [(ns_cc_NsCC, ["rights"]);
   (ns_crs_NsCrs, ["image"]);
   (ns_dc_NsDc, ["xmp"]);
   (ns_dji_NsDJI, ["camera"]);
   (ns_exif_NsExif, ["image"]); (ns_exif_NsExifEX, ["image"]); (ns_exif_NsExifAux, ["image"]);
   (ns_id3_NsID3, ["music"]);
   (ns_itunes_NsITunes, ["music"]);
   (ns_ixml_NsIXML, ["sound"]);
   (ns_mp4_NsMP4, ["movie"]);
   (ns_pdf_NsPDF, ["xmp"]);
   (ns_pm_NsPm, ["image"]);
   (ns_ps_NsPhotoshop, ["image"]);
   (ns_qt_NsQuicktime, ["movie"; "camera"]);
   (ns_riff_NsRiff, ["sound"]);
   (ns_tiff_NsTiff, ["image"]);
   (ns_xmpbase_NsXmp, ["xmp"]); (ns_xmpbase_nsXmpIdq, []); (ns_xmpbase_nsXmpG, []); (ns_xmpbase_nsXmpGImg, []);
   (ns_xmpbj_NsXmpBJ, ["xmp"]); (ns_xmpbj_nsStJob, []);
   (ns_xmpdm_NsXmpDM, ["xmp"]);
   (ns_xmpmm_NsXmpMM, ["xmp"]); (ns_xmpmm_nsStEvt, []); (ns_xmpmm_nsStRef, []); (ns_xmpmm_nsStVer, []);
   (ns_xmprights_NsXmpRights, ["xmp"; "rights"]);
   (ns_xmptpg_NsXmpTPg, ["xmp"]); (ns_xmptpg_nsStDim, []); (ns_xmptpg_nsStFnt, [])].
(* and of the package that models/import.go does not import *)
Definition library_rest : list reg_op :=
  [(ns_digikam_NsDk, ["xmp"])].
(* xmp/sdk.go:33-60 *)
Definition core : list reg_op :=
  [(ns_x, []); (ns_xml, []); (ns_rdf, []); (Namespace "stArea" "http://ns.adobe.com/xmp/sType/Area#" None, [])].
(* NewModel of each package; models/exif/model.go:53-63 and models/id3/model.go:52-57 look at the name *)
Definition library_kinds (n : nat) (s : string) : option (mkind X) :=
  match n with
  | 1 => Some k_cc_CC
  | 2 => Some k_crs_CameraRawInfo
  | 3 => Some k_dc_DublinCore
  | 4 => Some k_dji_DJI
  | 5 => if s =? "exif" then Some k_exif_ExifInfo else if s =? "exifEX" then Some k_exif_ExifEXInfo
           else if s =? "aux" then Some k_exif_ExifAuxInfo else None
  | 6 => if s =? "id3" then Some k_id3_ID3 else None
  | 7 => Some k_itunes_ITunesMetadata
  | 8 => Some k_ixml_IXML
  | 9 => Some k_mp4_MP4Info
  | 10 => Some k_pdf_PDFInfo
  | 11 => Some k_pm_Photomechanic
  | 12 => Some k_ps_PhotoshopInfo
  | 13 => Some k_qt_QtInfo
  | 14 => Some k_riff_RiffInfo
  | 15 => Some k_tiff_TiffInfo
  | 16 => Some k_xmpbase_XmpBase
  | 17 => Some k_xmpbj_JobTicket
  | 18 => Some k_xmpdm_XmpDM
  | 19 => Some k_xmpmm_XmpMM
  | 20 => Some k_xmprights_XmpRights
  | 21 => Some k_xmptpg_PagedText
  | 22 => Some k_digikam_Digikam
  | _ => None
  end.
(* what the factories make *)
Definition library_models : list (mkind X) :=
  [k_cc_CC; k_crs_CameraRawInfo; k_dc_DublinCore; k_digikam_Digikam; k_dji_DJI; k_exif_ExifInfo; k_exif_ExifEXInfo; k_exif_ExifAuxInfo; k_id3_ID3; k_itunes_ITunesMetadata; k_ixml_IXML; k_mp4_MP4Info; k_pdf_PDFInfo; k_pm_Photomechanic; k_ps_PhotoshopInfo; k_qt_QtInfo; k_riff_RiffInfo; k_tiff_TiffInfo; k_xmpbase_XmpBase; k_xmpbj_JobTicket; k_xmpdm_XmpDM; k_xmpmm_XmpMM; k_xmprights_XmpRights; k_xmptpg_PagedText].
(* all structs described, for the checks on their tags *)
Definition library_structs : list raw :=
  [fs_cc_CC;
   fs_crs_CameraRawInfo;
   fs_crs_Correction;
   fs_crs_CorrectionMask;
   fs_crs_RetouchArea;
   fs_dc_DublinCore;
   fs_digikam_Digikam;
   fs_dji_DJI;
   fs_exif_CFAPattern;
   fs_exif_DeviceSettings;
   fs_exif_ExifAuxInfo;
   fs_exif_ExifEXInfo;
   fs_exif_ExifInfo;
   fs_exif_Flash;
   fs_exif_OECF;
   fs_id3_AdjustmentPoint;
   fs_id3_AttachedPicture;
   fs_id3_AudioEncryption;
   fs_id3_AudioSeekIndex;
   fs_id3_BufferSize;
   fs_id3_Chapter;
   fs_id3_Commercial;
   fs_id3_EncapsulatedObject;
   fs_id3_EncryptionMethod;
   fs_id3_Equalization;
   fs_id3_Group;
   fs_id3_ID3;
   fs_id3_Link;
   fs_id3_Marker;
   fs_id3_Owner;
   fs_id3_Popularimeter;
   fs_id3_PositionSync;
   fs_id3_Price;
   fs_id3_PrivateData;
   fs_id3_Reverb;
   fs_id3_Signature;
   fs_id3_TimedLyrics;
   fs_id3_TimedText;
   fs_id3_TocEntry;
   fs_id3_VolumeAdjust;
   fs_itunes_AssetInfo;
   fs_itunes_ITunesMetadata;
   fs_itunes_MovieInfo;
   fs_itunes_Person;
   fs_itunes_SMPB;
   fs_ixml_DefaultMix;
   fs_ixml_FileSet;
   fs_ixml_History;
   fs_ixml_IXML;
   fs_ixml_Location;
   fs_ixml_Speed;
   fs_ixml_SyncPoint;
   fs_ixml_Track;
   fs_ixml_UserData;
   fs_mp4_MP4Info;
   fs_pdf_PDFInfo;
   fs_pm_Photomechanic;
   fs_ps_Anchestor;
   fs_ps_Layer;
   fs_ps_PhotoshopInfo;
   fs_qt_Location;
   fs_qt_QtInfo;
   fs_qt_QtMetadata;
   fs_qt_QtPlayer;
   fs_qt_QtProApps;
   fs_qt_QtUserdata;
   fs_riff_RiffInfo;
   fs_tiff_TiffInfo;
   fs_xmpbase_Thumbnail;
   fs_xmpbase_XmpBase;
   fs_xmpbj_Job;
   fs_xmpbj_JobTicket;
   fs_xmpdm_BeatSpliceStretch;
   fs_xmpdm_CuePointParam;
   fs_xmpdm_Marker;
   fs_xmpdm_Media;
   fs_xmpdm_MediaTime;
   fs_xmpdm_ProjectLink;
   fs_xmpdm_ResampleStretch;
   fs_xmpdm_TimeScaleStretch;
   fs_xmpdm_Track;
   fs_xmpdm_XmpDM;
   fs_xmpmm_ResourceEvent;
   fs_xmpmm_ResourceRef;
   fs_xmpmm_StVersion;
   fs_xmpmm_XmpMM;
   fs_xmprights_XmpRights;
   fs_xmptpg_Colorant;
   fs_xmptpg_Dimensions;
   fs_xmptpg_Font;
   fs_xmptpg_PagedText;
   fs_xmptpg_SwatchGroup].
End Library.
