(* Generated by tools/gen_native.py from the struct definitions of /repo/models: for every field of a model, in order,
   the name of the field and its struct tag, key by key. *)
From Coq Require Import List String.
Import ListNotations.
Local Open Scope string_scope.

Definition struct_tags := list (string * list (string * string)).

(* models/cc/model.go:57-62 *)
Definition st_cc_CC : struct_tags := [
   ("License", [("xmp", "cc:license")]);
   ("MorePermissions", [("xmp", "cc:morePermissions")]);
   ("AttributionURL", [("xmp", "cc:attributionURL")]);
   ("AttributionName", [("xmp", "cc:attributionName")])].
(* models/crs/model.go:52-250 *)
Definition st_crs_CameraRawInfo : struct_tags := [
   ("AutoBrightness", [("xmp", "crs:AutoBrightness")]);
   ("AutoContrast", [("xmp", "crs:AutoContrast")]);
   ("AutoExposure", [("xmp", "crs:AutoExposure")]);
   ("AutoShadows", [("xmp", "crs:AutoShadows")]);
   ("BlueHue", [("xmp", "crs:BlueHue")]);
   ("BlueSaturation", [("xmp", "crs:BlueSaturation")]);
   ("Brightness", [("xmp", "crs:Brightness")]);
   ("CameraProfile", [("xmp", "crs:CameraProfile")]);
   ("ChromaticAberrationB", [("xmp", "crs:ChromaticAberrationB")]);
   ("ChromaticAberrationR", [("xmp", "crs:ChromaticAberrationR")]);
   ("ColorNoiseReduction", [("xmp", "crs:ColorNoiseReduction")]);
   ("Contrast", [("xmp", "crs:Contrast")]);
   ("CropTop", [("xmp", "crs:CropTop")]);
   ("CropLeft", [("xmp", "crs:CropLeft")]);
   ("CropBottom", [("xmp", "crs:CropBottom")]);
   ("CropRight", [("xmp", "crs:CropRight")]);
   ("CropAngle", [("xmp", "crs:CropAngle")]);
   ("CropWidth", [("xmp", "crs:CropWidth")]);
   ("CropHeight", [("xmp", "crs:CropHeight")]);
   ("CropUnits", [("xmp", "crs:CropUnits")]);
   ("Exposure", [("xmp", "crs:Exposure")]);
   ("GreenHue", [("xmp", "crs:GreenHue")]);
   ("GreenSaturation", [("xmp", "crs:GreenSaturation")]);
   ("HasCrop", [("xmp", "crs:HasCrop")]);
   ("HasSettings", [("xmp", "crs:HasSettings")]);
   ("LuminanceSmoothing", [("xmp", "crs:LuminanceSmoothing")]);
   ("RawFileName", [("xmp", "crs:RawFileName")]);
   ("RedHue", [("xmp", "crs:RedHue")]);
   ("RedSaturation", [("xmp", "crs:RedSaturation")]);
   ("Saturation", [("xmp", "crs:Saturation")]);
   ("Shadows", [("xmp", "crs:Shadows")]);
   ("ShadowTint", [("xmp", "crs:ShadowTint")]);
   ("Sharpness", [("xmp", "crs:Sharpness")]);
   ("Temperature", [("xmp", "crs:Temperature")]);
   ("Tint", [("xmp", "crs:Tint")]);
   ("ToneCurve", [("xmp", "crs:ToneCurve")]);
   ("ToneCurveName", [("xmp", "crs:ToneCurveName")]);
   ("Version", [("xmp", "crs:Version")]);
   ("VignetteAmount", [("xmp", "crs:VignetteAmount")]);
   ("VignetteMidpoint", [("xmp", "crs:VignetteMidpoint")]);
   ("WhiteBalance", [("xmp", "crs:WhiteBalance")]);
   ("AlreadyApplied", [("xmp", "crs:AlreadyApplied")]);
   ("Dehaze", [("xmp", "crs:Dehaze")]);
   ("Converter", [("xmp", "crs:Converter")]);
   ("MoireFilter", [("xmp", "crs:MoireFilter")]);
   ("Smoothness", [("xmp", "crs:Smoothness")]);
   ("CameraProfileDigest", [("xmp", "crs:CameraProfileDigest")]);
   ("Clarity", [("xmp", "crs:Clarity")]);
   ("ConvertToGrayscale", [("xmp", "crs:ConvertToGrayscale")]);
   ("Defringe", [("xmp", "crs:Defringe")]);
   ("FillLight", [("xmp", "crs:FillLight")]);
   ("HighlightRecovery", [("xmp", "crs:HighlightRecovery")]);
   ("HueAdjustmentAqua", [("xmp", "crs:HueAdjustmentAqua")]);
   ("HueAdjustmentBlue", [("xmp", "crs:HueAdjustmentBlue")]);
   ("HueAdjustmentGreen", [("xmp", "crs:HueAdjustmentGreen")]);
   ("HueAdjustmentMagenta", [("xmp", "crs:HueAdjustmentMagenta")]);
   ("HueAdjustmentOrange", [("xmp", "crs:HueAdjustmentOrange")]);
   ("HueAdjustmentPurple", [("xmp", "crs:HueAdjustmentPurple")]);
   ("HueAdjustmentRed", [("xmp", "crs:HueAdjustmentRed")]);
   ("HueAdjustmentYellow", [("xmp", "crs:HueAdjustmentYellow")]);
   ("IncrementalTemperature", [("xmp", "crs:IncrementalTemperature")]);
   ("IncrementalTint", [("xmp", "crs:IncrementalTint")]);
   ("LuminanceAdjustmentAqua", [("xmp", "crs:LuminanceAdjustmentAqua")]);
   ("LuminanceAdjustmentBlue", [("xmp", "crs:LuminanceAdjustmentBlue")]);
   ("LuminanceAdjustmentGreen", [("xmp", "crs:LuminanceAdjustmentGreen")]);
   ("LuminanceAdjustmentMagenta", [("xmp", "crs:LuminanceAdjustmentMagenta")]);
   ("LuminanceAdjustmentOrange", [("xmp", "crs:LuminanceAdjustmentOrange")]);
   ("LuminanceAdjustmentPurple", [("xmp", "crs:LuminanceAdjustmentPurple")]);
   ("LuminanceAdjustmentRed", [("xmp", "crs:LuminanceAdjustmentRed")]);
   ("LuminanceAdjustmentYellow", [("xmp", "crs:LuminanceAdjustmentYellow")]);
   ("ParametricDarks", [("xmp", "crs:ParametricDarks")]);
   ("ParametricHighlights", [("xmp", "crs:ParametricHighlights")]);
   ("ParametricHighlightSplit", [("xmp", "crs:ParametricHighlightSplit")]);
   ("ParametricLights", [("xmp", "crs:ParametricLights")]);
   ("ParametricMidtoneSplit", [("xmp", "crs:ParametricMidtoneSplit")]);
   ("ParametricShadows", [("xmp", "crs:ParametricShadows")]);
   ("ParametricShadowSplit", [("xmp", "crs:ParametricShadowSplit")]);
   ("SaturationAdjustmentAqua", [("xmp", "crs:SaturationAdjustmentAqua")]);
   ("SaturationAdjustmentBlue", [("xmp", "crs:SaturationAdjustmentBlue")]);
   ("SaturationAdjustmentGreen", [("xmp", "crs:SaturationAdjustmentGreen")]);
   ("SaturationAdjustmentMagenta", [("xmp", "crs:SaturationAdjustmentMagenta")]);
   ("SaturationAdjustmentOrange", [("xmp", "crs:SaturationAdjustmentOrange")]);
   ("SaturationAdjustmentPurple", [("xmp", "crs:SaturationAdjustmentPurple")]);
   ("SaturationAdjustmentRed", [("xmp", "crs:SaturationAdjustmentRed")]);
   ("SaturationAdjustmentYellow", [("xmp", "crs:SaturationAdjustmentYellow")]);
   ("SharpenDetail", [("xmp", "crs:SharpenDetail")]);
   ("SharpenEdgeMasking", [("xmp", "crs:SharpenEdgeMasking")]);
   ("SharpenRadius", [("xmp", "crs:SharpenRadius")]);
   ("SplitToningBalance", [("xmp", "crs:SplitToningBalance")]);
   ("SplitToningHighlightHue", [("xmp", "crs:SplitToningHighlightHue")]);
   ("SplitToningHighlightSaturation", [("xmp", "crs:SplitToningHighlightSaturation")]);
   ("SplitToningShadowHue", [("xmp", "crs:SplitToningShadowHue")]);
   ("SplitToningShadowSaturation", [("xmp", "crs:SplitToningShadowSaturation")]);
   ("Vibrance", [("xmp", "crs:Vibrance")]);
   ("GrayMixerRed", [("xmp", "crs:GrayMixerRed")]);
   ("GrayMixerOrange", [("xmp", "crs:GrayMixerOrange")]);
   ("GrayMixerYellow", [("xmp", "crs:GrayMixerYellow")]);
   ("GrayMixerGreen", [("xmp", "crs:GrayMixerGreen")]);
   ("GrayMixerAqua", [("xmp", "crs:GrayMixerAqua")]);
   ("GrayMixerBlue", [("xmp", "crs:GrayMixerBlue")]);
   ("GrayMixerPurple", [("xmp", "crs:GrayMixerPurple")]);
   ("GrayMixerMagenta", [("xmp", "crs:GrayMixerMagenta")]);
   ("RetouchInfo", [("xmp", "crs:RetouchInfo")]);
   ("RedEyeInfo", [("xmp", "crs:RedEyeInfo")]);
   ("CropUnit", [("xmp", "crs:CropUnit")]);
   ("PostCropVignetteAmount", [("xmp", "crs:PostCropVignetteAmount")]);
   ("PostCropVignetteMidpoint", [("xmp", "crs:PostCropVignetteMidpoint")]);
   ("PostCropVignetteFeather", [("xmp", "crs:PostCropVignetteFeather")]);
   ("PostCropVignetteRoundness", [("xmp", "crs:PostCropVignetteRoundness")]);
   ("PostCropVignetteStyle", [("xmp", "crs:PostCropVignetteStyle")]);
   ("ProcessVersion", [("xmp", "crs:ProcessVersion")]);
   ("LensProfileEnable", [("xmp", "crs:LensProfileEnable")]);
   ("LensProfileSetup", [("xmp", "crs:LensProfileSetup")]);
   ("LensProfileName", [("xmp", "crs:LensProfileName")]);
   ("LensProfileFilename", [("xmp", "crs:LensProfileFilename")]);
   ("LensProfileDigest", [("xmp", "crs:LensProfileDigest")]);
   ("LensProfileDistortionScale", [("xmp", "crs:LensProfileDistortionScale")]);
   ("LensProfileChromaticAberrationScale", [("xmp", "crs:LensProfileChromaticAberrationScale")]);
   ("LensProfileVignettingScale", [("xmp", "crs:LensProfileVignettingScale")]);
   ("LensManualDistortionAmount", [("xmp", "crs:LensManualDistortionAmount")]);
   ("PerspectiveVertical", [("xmp", "crs:PerspectiveVertical")]);
   ("PerspectiveHorizontal", [("xmp", "crs:PerspectiveHorizontal")]);
   ("PerspectiveRotate", [("xmp", "crs:PerspectiveRotate")]);
   ("PerspectiveScale", [("xmp", "crs:PerspectiveScale")]);
   ("CropConstrainToWarp", [("xmp", "crs:CropConstrainToWarp")]);
   ("LuminanceNoiseReductionDetail", [("xmp", "crs:LuminanceNoiseReductionDetail")]);
   ("LuminanceNoiseReductionContrast", [("xmp", "crs:LuminanceNoiseReductionContrast")]);
   ("ColorNoiseReductionDetail", [("xmp", "crs:ColorNoiseReductionDetail")]);
   ("GrainAmount", [("xmp", "crs:GrainAmount")]);
   ("GrainSize", [("xmp", "crs:GrainSize")]);
   ("GrainFrequency", [("xmp", "crs:GrainFrequency")]);
   ("AutoLateralCA", [("xmp", "crs:AutoLateralCA")]);
   ("Exposure2012", [("xmp", "crs:Exposure2012")]);
   ("Contrast2012", [("xmp", "crs:Contrast2012")]);
   ("Highlights2012", [("xmp", "crs:Highlights2012")]);
   ("Shadows2012", [("xmp", "crs:Shadows2012")]);
   ("Whites2012", [("xmp", "crs:Whites2012")]);
   ("Blacks2012", [("xmp", "crs:Blacks2012")]);
   ("Clarity2012", [("xmp", "crs:Clarity2012")]);
   ("PostCropVignetteHighlightContrast", [("xmp", "crs:PostCropVignetteHighlightContrast")]);
   ("ToneCurveName2012", [("xmp", "crs:ToneCurveName2012")]);
   ("ToneCurveRed", [("xmp", "crs:ToneCurveRed")]);
   ("ToneCurveGreen", [("xmp", "crs:ToneCurveGreen")]);
   ("ToneCurveBlue", [("xmp", "crs:ToneCurveBlue")]);
   ("ToneCurvePV2012", [("xmp", "crs:ToneCurvePV2012")]);
   ("ToneCurvePV2012Red", [("xmp", "crs:ToneCurvePV2012Red")]);
   ("ToneCurvePV2012Green", [("xmp", "crs:ToneCurvePV2012Green")]);
   ("ToneCurvePV2012Blue", [("xmp", "crs:ToneCurvePV2012Blue")]);
   ("ToneMapStrength", [("xmp", "crs:ToneMapStrength")]);
   ("DefringePurpleAmount", [("xmp", "crs:DefringePurpleAmount")]);
   ("DefringePurpleHueLo", [("xmp", "crs:DefringePurpleHueLo")]);
   ("DefringePurpleHueHi", [("xmp", "crs:DefringePurpleHueHi")]);
   ("DefringeGreenAmount", [("xmp", "crs:DefringeGreenAmount")]);
   ("DefringeGreenHueLo", [("xmp", "crs:DefringeGreenHueLo")]);
   ("DefringeGreenHueHi", [("xmp", "crs:DefringeGreenHueHi")]);
   ("AutoWhiteVersion", [("xmp", "crs:AutoWhiteVersion")]);
   ("ColorNoiseReductionSmoothness", [("xmp", "crs:ColorNoiseReductionSmoothness")]);
   ("PerspectiveAspect", [("xmp", "crs:PerspectiveAspect")]);
   ("PerspectiveUpright", [("xmp", "crs:PerspectiveUpright")]);
   ("UprightVersion", [("xmp", "crs:UprightVersion")]);
   ("UprightCenterMode", [("xmp", "crs:UprightCenterMode")]);
   ("UprightCenterNormX", [("xmp", "crs:UprightCenterNormX")]);
   ("UprightCenterNormY", [("xmp", "crs:UprightCenterNormY")]);
   ("UprightFocalMode", [("xmp", "crs:UprightFocalMode")]);
   ("UprightFocalLength35mm", [("xmp", "crs:UprightFocalLength35mm")]);
   ("UprightPreview", [("xmp", "crs:UprightPreview")]);
   ("UprightTransformCount", [("xmp", "crs:UprightTransformCount")]);
   ("UprightDependentDigest", [("xmp", "crs:UprightDependentDigest")]);
   ("UprightTransform_0", [("xmp", "crs:UprightTransform_0")]);
   ("UprightTransform_1", [("xmp", "crs:UprightTransform_1")]);
   ("UprightTransform_2", [("xmp", "crs:UprightTransform_2")]);
   ("UprightTransform_3", [("xmp", "crs:UprightTransform_3")]);
   ("UprightTransform_4", [("xmp", "crs:UprightTransform_4")]);
   ("LensProfileMatchKeyExifMake", [("xmp", "crs:LensProfileMatchKeyExifMake")]);
   ("LensProfileMatchKeyExifModel", [("xmp", "crs:LensProfileMatchKeyExifModel")]);
   ("LensProfileMatchKeyCameraModelName", [("xmp", "crs:LensProfileMatchKeyCameraModelName")]);
   ("LensProfileMatchKeyLensInfo", [("xmp", "crs:LensProfileMatchKeyLensInfo")]);
   ("LensProfileMatchKeyLensID", [("xmp", "crs:LensProfileMatchKeyLensID")]);
   ("LensProfileMatchKeyLensName", [("xmp", "crs:LensProfileMatchKeyLensName")]);
   ("LensProfileMatchKeyIsRaw", [("xmp", "crs:LensProfileMatchKeyIsRaw")]);
   ("LensProfileMatchKeySensorFormatFactor", [("xmp", "crs:LensProfileMatchKeySensorFormatFactor")]);
   ("DefaultAutoTone", [("xmp", "crs:DefaultAutoTone")]);
   ("DefaultAutoGray", [("xmp", "crs:DefaultAutoGray")]);
   ("DefaultsSpecificToSerial", [("xmp", "crs:DefaultsSpecificToSerial")]);
   ("DefaultsSpecificToISO", [("xmp", "crs:DefaultsSpecificToISO")]);
   ("DNGIgnoreSidecars", [("xmp", "crs:DNGIgnoreSidecars")]);
   ("NegativeCachePath", [("xmp", "crs:NegativeCachePath")]);
   ("NegativeCacheMaximumSize", [("xmp", "crs:NegativeCacheMaximumSize")]);
   ("NegativeCacheLargePreviewSize", [("xmp", "crs:NegativeCacheLargePreviewSize")]);
   ("JPEGHandling", [("xmp", "crs:JPEGHandling")]);
   ("TIFFHandling", [("xmp", "crs:TIFFHandling")]);
   ("GradientBasedCorrections", [("xmp", "crs:GradientBasedCorrections")]);
   ("CircularGradientBasedCorrections", [("xmp", "crs:CircularGradientBasedCorrections")]);
   ("PaintBasedCorrections", [("xmp", "crs:PaintBasedCorrections")]);
   ("RetouchAreas", [("xmp", "crs:RetouchAreas")])].
(* models/dc/model.go:54-70 *)
Definition st_dc_DublinCore : struct_tags := [
   ("Contributor", [("xmp", "dc:contributor")]);
   ("Coverage", [("xmp", "dc:coverage")]);
   ("Creator", [("xmp", "dc:creator")]);
   ("Date", [("xmp", "dc:date")]);
   ("Description", [("xmp", "dc:description")]);
   ("Format", [("xmp", "dc:format")]);
   ("Identifier", [("xmp", "dc:identifier")]);
   ("Language", [("xmp", "dc:language")]);
   ("Publisher", [("xmp", "dc:publisher")]);
   ("Relation", [("xmp", "dc:relation")]);
   ("Rights", [("xmp", "dc:rights")]);
   ("Source", [("xmp", "dc:source")]);
   ("Subject", [("xmp", "dc:subject")]);
   ("Title", [("xmp", "dc:title")]);
   ("Type", [("xmp", "dc:type")])].
(* models/digikam/model.go:38-47 *)
Definition st_digikam_Digikam : struct_tags := [
   ("TagsList", [("xmp", "digiKam:TagsList")]);
   ("CaptionsAutorNames", [("xmp", "digiKam:CaptionsAutorNames")]);
   ("CaptionsDateTimeStamps", [("xmp", "digiKam:CaptionsDateTimeStamps")]);
   ("ImageHistory", [("xmp", "digiKam:ImageHistory")]);
   ("ImageUniqueID", [("xmp", "digiKam:ImageUniqueID")]);
   ("LensCorrectionSettings", [("xmp", "digiKam:LensCorrectionSettings")]);
   ("ColorLabel", [("xmp", "digiKam:ColorLabel")]);
   ("PickLabel", [("xmp", "digiKam:PickLabel")])].
(* models/dji/dji.go:91-104 *)
Definition st_dji_DJI : struct_tags := [
   ("AbsoluteAltitude", [("drone-dji", "AbsoluteAltitude"); ("qt", "-"); ("xmp", "drone-dji:AbsoluteAltitude")]);
   ("FlightPitchDegree", [("drone-dji", "FlightPitchDegree"); ("qt", "©fpt"); ("xmp", "drone-dji:FlightPitchDegree")]);
   ("FlightRollDegree", [("drone-dji", "FlightRollDegree"); ("qt", "©frl"); ("xmp", "drone-dji:FlightRollDegree")]);
   ("FlightYawDegree", [("drone-dji", "FlightYawDegree"); ("qt", "©fyw"); ("xmp", "drone-dji:FlightYawDegree")]);
   ("GimbalPitchDegree", [("drone-dji", "GimbalPitchDegree"); ("qt", "©gpt"); ("xmp", "drone-dji:GimbalPitchDegree")]);
   ("GimbalRollDegree", [("drone-dji", "GimbalRollDegree"); ("qt", "©grl"); ("xmp", "drone-dji:GimbalRollDegree")]);
   ("GimbalYawDegree", [("drone-dji", "GimbalYawDegree"); ("qt", "©gyw"); ("xmp", "drone-dji:GimbalYawDegree")]);
   ("RelativeAltitude", [("drone-dji", "RelativeAltitude"); ("qt", "-"); ("xmp", "drone-dji:RelativeAltitude")]);
   ("SpeedX", [("drone-dji", "SpeedX"); ("qt", "©xsp"); ("xmp", "drone-dji:SpeedX")]);
   ("SpeedY", [("drone-dji", "SpeedY"); ("qt", "©ysp"); ("xmp", "drone-dji:SpeedY")]);
   ("SpeedZ", [("drone-dji", "SpeedZ"); ("qt", "©zsp"); ("xmp", "drone-dji:SpeedZ")]);
   ("Model", [("drone-dji", "Model"); ("qt", "©mdl"); ("xmp", "tiff:Model")])].
(* models/exif/model.go:81-252 *)
Definition st_exif_ExifInfo : struct_tags := [
   ("Artist", [("exif", "0x013b"); ("xmp", "tiff:Artist,omit")]);
   ("ArtistXMP", [("exif", "-"); ("xmp", "dc:creator")]);
   ("BitsPerSample", [("exif", "0x0102"); ("xmp", "tiff:BitsPerSample")]);
   ("Compression", [("exif", "0x0103"); ("xmp", "tiff:Compression")]);
   ("Copyright", [("exif", "0x8298"); ("xmp", "tiff:Copyright,omit")]);
   ("CopyrightXMP", [("exif", "-"); ("xmp", "dc:rights")]);
   ("DateTime", [("exif", "0x0132"); ("xmp", "tiff:DateTime,omit")]);
   ("DateTimeXMP", [("exif", "-"); ("xmp", "xmp:ModifyDate")]);
   ("ImageDescription", [("exif", "0x010e"); ("xmp", "tiff:ImageDescription,omit")]);
   ("ImageDescriptionXMP", [("exif", "-"); ("xmp", "dc:description")]);
   ("ImageLength", [("exif", "0x0101"); ("xmp", "tiff:ImageLength")]);
   ("ImageWidth", [("exif", "0x0100"); ("xmp", "tiff:ImageWidth")]);
   ("Make", [("exif", "0x010f"); ("xmp", "tiff:Make")]);
   ("Model", [("exif", "0x0110"); ("xmp", "tiff:Model")]);
   ("Orientation", [("exif", "0x0112"); ("xmp", "tiff:Orientation")]);
   ("PhotometricInterpretation", [("exif", "0x0106"); ("xmp", "tiff:PhotometricInterpretation")]);
   ("PlanarConfiguration", [("exif", "0x011c"); ("xmp", "tiff:PlanarConfiguration")]);
   ("PrimaryChromaticities", [("exif", "0x013f"); ("xmp", "tiff:PrimaryChromaticities")]);
   ("ReferenceBlackWhite", [("exif", "0x0214"); ("xmp", "tiff:ReferenceBlackWhite")]);
   ("ResolutionUnit", [("exif", "0x0128"); ("xmp", "tiff:ResolutionUnit")]);
   ("SamplesPerPixel", [("exif", "0x0115"); ("xmp", "tiff:SamplesPerPixel")]);
   ("Software", [("exif", "0x0131"); ("xmp", "tiff:Software,omit")]);
   ("SoftwareXMP", [("exif", "-"); ("xmp", "xmp:CreatorTool")]);
   ("TransferFunction", [("exif", "0x012d"); ("xmp", "tiff:TransferFunction")]);
   ("WhitePoint", [("exif", "0x013e"); ("xmp", "tiff:WhitePoint")]);
   ("XResolution", [("exif", "0x011a"); ("xmp", "tiff:XResolution")]);
   ("YCbCrCoefficients", [("exif", "0x0211"); ("xmp", "tiff:YCbCrCoefficients")]);
   ("YCbCrPositioning", [("exif", "0x0213"); ("xmp", "tiff:YCbCrPositioning")]);
   ("YCbCrSubSampling", [("exif", "0x0212"); ("xmp", "tiff:YCbCrSubSampling")]);
   ("YResolution", [("exif", "0x011b"); ("xmp", "tiff:YResolution")]);
   ("ExifVersion", [("exif", "0x9000"); ("xmp", "exif:ExifVersion")]);
   ("FlashpixVersion", [("exif", "0xa000"); ("xmp", "exif:FlashpixVersion")]);
   ("ColorSpace", [("exif", "0xa001"); ("xmp", "exif:ColorSpace,empty")]);
   ("ComponentsConfiguration", [("exif", "0x9101"); ("xmp", "exif:ComponentsConfiguration")]);
   ("CompressedBitsPerPixel", [("exif", "0x9102"); ("xmp", "exif:CompressedBitsPerPixel")]);
   ("PixelXDimension", [("exif", "0xa002"); ("xmp", "exif:PixelXDimension")]);
   ("PixelYDimension", [("exif", "0xa003"); ("xmp", "exif:PixelYDimension")]);
   ("MakerNote", [("exif", "0x927c"); ("xmp", "exif:MakerNote,omit")]);
   ("UserComment", [("exif", "0x9286"); ("xmp", "exif:UserComment")]);
   ("RelatedSoundFile", [("exif", "0xa004"); ("xmp", "exif:RelatedSoundFile")]);
   ("DateTimeOriginal", [("exif", "0x9003"); ("xmp", "exif:DateTimeOriginal,omit")]);
   ("DateTimeOriginalXMP", [("exif", "-"); ("xmp", "photoshop:DateCreated")]);
   ("DateTimeDigitized", [("exif", "0x9004"); ("xmp", "-")]);
   ("DateTimeDigitizedXMP", [("exif", "-"); ("xmp", "exif:DateTimeDigitized")]);
   ("SubSecTime", [("exif", "0x9290"); ("xmp", "exif:SubSecTime,omit")]);
   ("SubSecTimeOriginal", [("exif", "0x9291"); ("xmp", "exif:SubSecTimeOriginal,omit")]);
   ("SubSecTimeDigitized", [("exif", "0x9292"); ("xmp", "exif:SubSecTimeDigitized,omit")]);
   ("ExposureTime", [("exif", "0x829a"); ("xmp", "exif:ExposureTime")]);
   ("FNumber", [("exif", "0x829d"); ("xmp", "exif:FNumber")]);
   ("ExposureProgram", [("exif", "0x8822"); ("xmp", "exif:ExposureProgram,empty")]);
   ("SpectralSensitivity", [("exif", "0x8824"); ("xmp", "exif:SpectralSensitivity")]);
   ("OECF", [("exif", "0x8828"); ("xmp", "exif:OECF")]);
   ("ShutterSpeedValue", [("exif", "0x9201"); ("xmp", "exif:ShutterSpeedValue")]);
   ("ApertureValue", [("exif", "0x9202"); ("xmp", "exif:ApertureValue")]);
   ("BrightnessValue", [("exif", "0x9203"); ("xmp", "exif:BrightnessValue")]);
   ("ExposureBiasValue", [("exif", "0x9204"); ("xmp", "exif:ExposureBiasValue")]);
   ("MaxApertureValue", [("exif", "0x9205"); ("xmp", "exif:MaxApertureValue")]);
   ("SubjectDistance", [("exif", "0x9206"); ("xmp", "exif:SubjectDistance")]);
   ("MeteringMode", [("exif", "0x9207"); ("xmp", "exif:MeteringMode,empty")]);
   ("LightSource", [("exif", "0x9208"); ("xmp", "exif:LightSource,empty")]);
   ("Flash", [("exif", "0x9209"); ("xmp", "exif:Flash")]);
   ("FocalLength", [("exif", "0x920a"); ("xmp", "exif:FocalLength")]);
   ("SubjectArea", [("exif", "0x9214"); ("xmp", "exif:SubjectArea")]);
   ("FlashEnergy", [("exif", "0xa20b"); ("xmp", "exif:FlashEnergy")]);
   ("SpatialFrequencyResponse", [("exif", "0xa20c"); ("xmp", "exif:SpatialFrequencyResponse")]);
   ("FocalPlaneXResolution", [("exif", "0xa20e"); ("xmp", "exif:FocalPlaneXResolution")]);
   ("FocalPlaneYResolution", [("exif", "0xa20f"); ("xmp", "exif:FocalPlaneYResolution")]);
   ("FocalPlaneResolutionUnit", [("exif", "0xa210"); ("xmp", "exif:FocalPlaneResolutionUnit,empty")]);
   ("SubjectLocation", [("exif", "0xa214"); ("xmp", "exif:SubjectLocation")]);
   ("ExposureIndex", [("exif", "0xa215"); ("xmp", "exif:ExposureIndex")]);
   ("SensingMethod", [("exif", "0xa217"); ("xmp", "exif:SensingMethod,empty")]);
   ("FileSource", [("exif", "0xa300"); ("xmp", "exif:FileSource,empty")]);
   ("SceneType", [("exif", "0xa301"); ("xmp", "exif:SceneType,empty")]);
   ("CFAPattern", [("exif", "0xa302"); ("xmp", "exif:CFAPattern")]);
   ("CustomRendered", [("exif", "0xa401"); ("xmp", "exif:CustomRendered,empty")]);
   ("ExposureMode", [("exif", "0xa402"); ("xmp", "exif:ExposureMode,empty")]);
   ("WhiteBalance", [("exif", "0xa403"); ("xmp", "exif:WhiteBalance,empty")]);
   ("DigitalZoomRatio", [("exif", "0xa404"); ("xmp", "exif:DigitalZoomRatio")]);
   ("FocalLengthIn35mmFilm", [("exif", "0xa405"); ("xmp", "exif:FocalLengthIn35mmFilm")]);
   ("SceneCaptureType", [("exif", "0xa406"); ("xmp", "exif:SceneCaptureType,empty")]);
   ("GainControl", [("exif", "0xa407"); ("xmp", "exif:GainControl,empty")]);
   ("Contrast", [("exif", "0xa408"); ("xmp", "exif:Contrast,empty")]);
   ("Saturation", [("exif", "0xa409"); ("xmp", "exif:Saturation,empty")]);
   ("Sharpness", [("exif", "0xa40a"); ("xmp", "exif:Sharpness,empty")]);
   ("DeviceSettingDescription", [("exif", "0xa40b"); ("xmp", "exif:DeviceSettingDescription")]);
   ("SubjectDistanceRange", [("exif", "0xa40c"); ("xmp", "exif:SubjectDistanceRange,empty")]);
   ("ImageUniqueID", [("exif", "0xa420"); ("xmp", "exif:ImageUniqueID")]);
   ("GPSVersionID", [("exif", "0x0000"); ("xmp", "exif:GPSVersionID")]);
   ("GPSLatitudeRef", [("exif", "0x0001"); ("xmp", "-")]);
   ("GPSLatitude", [("exif", "0x0002"); ("xmp", "-")]);
   ("GPSLatitudeCoord", [("exif", "-"); ("xmp", "exif:GPSLatitude")]);
   ("GPSLongitudeRef", [("exif", "0x0003"); ("xmp", "-")]);
   ("GPSLongitude", [("exif", "0x0004"); ("xmp", "-")]);
   ("GPSLongitudeCoord", [("exif", "-"); ("xmp", "exif:GPSLongitude")]);
   ("GPSAltitudeRef", [("exif", "0x0005"); ("xmp", "exif:GPSAltitudeRef")]);
   ("GPSAltitude", [("exif", "0x0006"); ("xmp", "exif:GPSAltitude")]);
   ("GPSTimeStamp", [("exif", "0x0007"); ("xmp", "-")]);
   ("GPSDateStamp", [("exif", "0x001d"); ("xmp", "-")]);
   ("GPSTimeStampXMP", [("exif", "-"); ("xmp", "exif:GPSTimeStamp")]);
   ("GPSSatellites", [("exif", "0x0008"); ("xmp", "exif:GPSSatellites")]);
   ("GPSStatus", [("exif", "0x0009"); ("xmp", "exif:GPSStatus")]);
   ("GPSMeasureMode", [("exif", "0x000a"); ("xmp", "exif:GPSMeasureMode")]);
   ("GPSDOP", [("exif", "0x000b"); ("xmp", "exif:GPSDOP")]);
   ("GPSSpeedRef", [("exif", "0x000c"); ("xmp", "exif:GPSSpeedRef")]);
   ("GPSSpeed", [("exif", "0x000d"); ("xmp", "exif:GPSSpeed")]);
   ("GPSTrackRef", [("exif", "0x000e"); ("xmp", "exif:GPSTrackRef")]);
   ("GPSTrack", [("exif", "0x000f"); ("xmp", "exif:GPSTrack")]);
   ("GPSImgDirectionRef", [("exif", "0x0010"); ("xmp", "exif:GPSImgDirectionRef")]);
   ("GPSImgDirection", [("exif", "0x0011"); ("xmp", "exif:GPSImgDirection")]);
   ("GPSMapDatum", [("exif", "0x0012"); ("xmp", "exif:GPSMapDatum")]);
   ("GPSDestLatitudeRef", [("exif", "0x0013"); ("xmp", "-")]);
   ("GPSDestLatitude", [("exif", "0x0014"); ("xmp", "-")]);
   ("GPSDestLatitudeCoord", [("exif", "-"); ("xmp", "exif:GPSDestLatitude")]);
   ("GPSDestLongitudeRef", [("exif", "0x0015"); ("xmp", "-")]);
   ("GPSDestLongitude", [("exif", "0x0016"); ("xmp", "-")]);
   ("GPSDestLongitudeCoord", [("exif", "-"); ("xmp", "exif:GPSDestLongitude")]);
   ("GPSDestBearingRef", [("exif", "0x0017"); ("xmp", "exif:GPSDestBearingRef")]);
   ("GPSDestBearing", [("exif", "0x0018"); ("xmp", "exif:GPSDestBearing")]);
   ("GPSDestDistanceRef", [("exif", "0x0019"); ("xmp", "exif:GPSDestDistanceRef")]);
   ("GPSDestDistance", [("exif", "0x001a"); ("xmp", "exif:GPSDestDistance")]);
   ("GPSProcessingMethod", [("exif", "0x001b"); ("xmp", "exif:GPSProcessingMethod")]);
   ("GPSAreaInformation", [("exif", "0x001c"); ("xmp", "exif:GPSAreaInformation")]);
   ("GPSDifferential", [("exif", "0x001e"); ("xmp", "exif:GPSDifferential")]);
   ("GPSHPositioningError", [("exif", "0x001f"); ("xmp", "exif:GPSHPositioningError")]);
   ("NativeDigest", [("exif", "-"); ("xmp", "exif:NativeDigest,omit")]);
   ("ISOSpeedRatings", [("exif", "-"); ("xmp", "exif:ISOSpeedRatings,omit")]);
   ("ExRelatedImageFileFormat", [("exif", "0x1000"); ("xmp", "exif:RelatedImageFileFormat")]);
   ("ExRelatedImageWidth", [("exif", "0x1001"); ("xmp", "exif:RelatedImageWidth")]);
   ("ExRelatedImageLength", [("exif", "0x1002"); ("xmp", "exif:RelatedImageLength")]);
   ("ExPhotographicSensitivity", [("exif", "0x8827"); ("xmp", "exif:PhotographicSensitivity")]);
   ("ExSensitivityType", [("exif", "0x8830"); ("xmp", "exif:SensitivityType")]);
   ("ExStandardOutputSensitivity", [("exif", "0x8831"); ("xmp", "exif:StandardOutputSensitivity")]);
   ("ExRecommendedExposureIndex", [("exif", "0x8832"); ("xmp", "exif:RecommendedExposureIndex")]);
   ("ExISOSpeed", [("exif", "0x8833"); ("xmp", "exif:ISOSpeed")]);
   ("ExISOSpeedLatitudeyyy", [("exif", "0x8834"); ("xmp", "exif:ISOSpeedLatitudeyyy")]);
   ("ExISOSpeedLatitudezzz", [("exif", "0x8835"); ("xmp", "exif:ISOSpeedLatitudezzz")]);
   ("ExCameraOwnerName", [("exif", "0xa430"); ("xmp", "exif:CameraOwnerName")]);
   ("ExBodySerialNumber", [("exif", "0xa431"); ("xmp", "exif:BodySerialNumber")]);
   ("ExLensSpecification", [("exif", "0xa432"); ("xmp", "exif:LensSpecification")]);
   ("ExLensMake", [("exif", "0xa433"); ("xmp", "exif:LensMake")]);
   ("ExLensModel", [("exif", "0xa434"); ("xmp", "exif:LensModel")]);
   ("ExLensSerialNumber", [("exif", "0xa435"); ("xmp", "exif:LensSerialNumber")]);
   ("ExGamma", [("exif", "0xa500"); ("xmp", "exif:Gamma")]);
   ("AuxApproximateFocusDistance", [("xmp", "exif:ApproximateFocusDistance")]);
   ("AuxDistortionCorrectionAlreadyApplied", [("xmp", "exif:DistortionCorrectionAlreadyApplied")]);
   ("AuxSerialNumber", [("xmp", "exif:SerialNumber")]);
   ("AuxLensInfo", [("xmp", "exif:LensInfo")]);
   ("AuxLensDistortInfo", [("xmp", "exif:LensDistortInfo")]);
   ("AuxLens", [("xmp", "exif:Lens")]);
   ("AuxLensID", [("xmp", "exif:LensID")]);
   ("AuxImageNumber", [("xmp", "exif:ImageNumber")]);
   ("AuxIsMergedHDR", [("xmp", "exif:IsMergedHDR")]);
   ("AuxIsMergedPanorama", [("xmp", "exif:IsMergedPanorama")]);
   ("AuxLateralChromaticAberrationCorrectionAlreadyApplied", [("xmp", "exif:LateralChromaticAberrationCorrectionAlreadyApplied")]);
   ("AuxVignetteCorrectionAlreadyApplied", [("xmp", "exif:VignetteCorrectionAlreadyApplied")]);
   ("AuxFlashCompensation", [("xmp", "exif:FlashCompensation")]);
   ("AuxFirmware", [("xmp", "exif:Firmware")]);
   ("AuxOwnerName", [("xmp", "exif:OwnerName")])].
(* models/exif/model.go:417-437 *)
Definition st_exif_ExifEXInfo : struct_tags := [
   ("InteroperabilityIndex", [("exif", "0x0001"); ("xmp", "exifEX:InteroperabilityIndex")]);
   ("InteroperabilityVersion", [("exif", "0x0002"); ("xmp", "exifEX:InteroperabilityVersion")]);
   ("RelatedImageFileFormat", [("exif", "0x1000"); ("xmp", "exifEX:RelatedImageFileFormat")]);
   ("RelatedImageWidth", [("exif", "0x1001"); ("xmp", "exifEX:RelatedImageWidth")]);
   ("RelatedImageLength", [("exif", "0x1002"); ("xmp", "exifEX:RelatedImageLength")]);
   ("PhotographicSensitivity", [("exif", "0x8827"); ("xmp", "exifEX:PhotographicSensitivity")]);
   ("SensitivityType", [("exif", "0x8830"); ("xmp", "exifEX:SensitivityType")]);
   ("StandardOutputSensitivity", [("exif", "0x8831"); ("xmp", "exifEX:StandardOutputSensitivity")]);
   ("RecommendedExposureIndex", [("exif", "0x8832"); ("xmp", "exifEX:RecommendedExposureIndex")]);
   ("ISOSpeed", [("exif", "0x8833"); ("xmp", "exifEX:ISOSpeed")]);
   ("ISOSpeedLatitudeyyy", [("exif", "0x8834"); ("xmp", "exifEX:ISOSpeedLatitudeyyy")]);
   ("ISOSpeedLatitudezzz", [("exif", "0x8835"); ("xmp", "exifEX:ISOSpeedLatitudezzz")]);
   ("CameraOwnerName", [("exif", "0xa430"); ("xmp", "exifEX:CameraOwnerName")]);
   ("BodySerialNumber", [("exif", "0xa431"); ("xmp", "exifEX:BodySerialNumber")]);
   ("LensSpecification", [("exif", "0xa432"); ("xmp", "exifEX:LensSpecification")]);
   ("LensMake", [("exif", "0xa433"); ("xmp", "exifEX:LensMake")]);
   ("LensModel", [("exif", "0xa434"); ("xmp", "exifEX:LensModel")]);
   ("LensSerialNumber", [("exif", "0xa435"); ("xmp", "exifEX:LensSerialNumber")]);
   ("Gamma", [("exif", "0xa500"); ("xmp", "exifEX:Gamma")])].
(* models/exif/model.go:487-504 *)
Definition st_exif_ExifAuxInfo : struct_tags := [
   ("ApproximateFocusDistance", [("xmp", "aux:ApproximateFocusDistance")]);
   ("DistortionCorrectionAlreadyApplied", [("xmp", "aux:DistortionCorrectionAlreadyApplied")]);
   ("SerialNumber", [("xmp", "aux:SerialNumber")]);
   ("LensInfo", [("xmp", "aux:LensInfo")]);
   ("LensDistortInfo", [("xmp", "aux:LensDistortInfo")]);
   ("Lens", [("xmp", "aux:Lens")]);
   ("LensID", [("xmp", "aux:LensID")]);
   ("LensSerialNumber", [("xmp", "aux:LensSerialNumber")]);
   ("ImageNumber", [("xmp", "aux:ImageNumber")]);
   ("IsMergedHDR", [("xmp", "aux:IsMergedHDR")]);
   ("IsMergedPanorama", [("xmp", "aux:IsMergedPanorama")]);
   ("LateralChromaticAberrationCorrectionAlreadyApplied", [("xmp", "aux:LateralChromaticAberrationCorrectionAlreadyApplied")]);
   ("VignetteCorrectionAlreadyApplied", [("xmp", "aux:VignetteCorrectionAlreadyApplied")]);
   ("FlashCompensation", [("xmp", "aux:FlashCompensation")]);
   ("Firmware", [("xmp", "aux:Firmware")]);
   ("OwnerName", [("xmp", "aux:OwnerName")])].
(* models/id3/model.go:226-333 *)
Definition st_id3_ID3 : struct_tags := [
   ("AudioEncryption", [("id3", "AENC"); ("xmp", "id3:audioEncryption")]);
   ("AttachedPicture", [("id3", "APIC"); ("xmp", "id3:attachedPicture")]);
   ("AudioSeekPointIndex", [("id3", "ASPI,v2.4+"); ("xmp", "id3:audioSeekPointIndex,v2.4+")]);
   ("Comments", [("id3", "COMM"); ("xmp", "id3:comments")]);
   ("Commercial", [("id3", "COMR"); ("xmp", "id3:commercial")]);
   ("Encryption", [("id3", "ENCR"); ("xmp", "id3:encryption")]);
   ("Equalization_v23", [("id3", "EQUA,v2.3-"); ("xmp", "id3:equalization_v23,v2.3-")]);
   ("Equalization", [("id3", "EQU2,v2.4+"); ("xmp", "id3:equalization,v2.4+")]);
   ("EventTimingCodes", [("id3", "ETCO"); ("xmp", "id3:eventTimingCodes")]);
   ("GeneralEncapsulatedObject", [("id3", "GEOB"); ("xmp", "id3:generalEncapsulatedObject")]);
   ("GroupIdentifier", [("id3", "GRID"); ("xmp", "id3:groupIdentifier")]);
   ("InvolvedPeopleList_v23", [("id3", "IPLS,v2.3-"); ("xmp", "id3:involvedPeopleList_v23,v2.3-")]);
   ("Link", [("id3", "LINK"); ("xmp", "id3:link")]);
   ("MusicCDIdentifier", [("id3", "MCDI"); ("xmp", "id3:musicCDIdentifier")]);
   ("MPEGLocationLookupTable", [("id3", "MLLT"); ("xmp", "id3:mpegLocationLookupTable")]);
   ("Ownership", [("id3", "OWNE"); ("xmp", "id3:ownership")]);
   ("Private", [("id3", "PRIV"); ("xmp", "id3:private")]);
   ("PlayCounter", [("id3", "PCNT"); ("xmp", "id3:playCounter")]);
   ("Popularimeter", [("id3", "POPM"); ("xmp", "id3:popularimeter")]);
   ("PositionSynchronization", [("id3", "POSS"); ("xmp", "id3:positionSynchronization")]);
   ("RecommendedBufferSize", [("id3", "RBUF"); ("xmp", "id3:recommendedBufferSize")]);
   ("RelativeVolumeAdjustment_v23", [("id3", "RVAD,v2.3-"); ("xmp", "id3:relativeVolumeAdjustment_v23,v2.3-")]);
   ("RelativeVolumeAdjustment", [("id3", "RVA2,v2.4+"); ("xmp", "id3:relativeVolumeAdjustment,v2.4+")]);
   ("Reverb", [("id3", "RVRB"); ("xmp", "id3:reverb")]);
   ("Seek", [("id3", "SEEK,v2.4+"); ("xmp", "id3:seek,v2.4+")]);
   ("Signature", [("id3", "SIGN,v2.4+"); ("xmp", "id3:signature,v2.4+")]);
   ("SynchronizedLyrics", [("id3", "SYLT"); ("xmp", "id3:synchronizedLyrics")]);
   ("SynchronizedTempoCodes", [("id3", "SYTC"); ("xmp", "id3:synchronizedTempoCodes")]);
   ("AlbumTitle", [("id3", "TALB"); ("xmp", "id3:albumTitle")]);
   ("BeatsPerMinute", [("id3", "TBPM"); ("xmp", "id3:beatsPerMinute")]);
   ("Composer", [("id3", "TCOM"); ("xmp", "id3:composer")]);
   ("ContentType", [("id3", "TCON"); ("xmp", "id3:contentType")]);
   ("Copyright", [("id3", "TCOP"); ("xmp", "id3:copyright")]);
   ("Date_v23", [("id3", "TDAT,v2.3-"); ("xmp", "id3:date_v23,v2.3-")]);
   ("EncodingTime", [("id3", "TDEN,v2.4+"); ("xmp", "id3:encodingTime,v2.4+")]);
   ("PlaylistDelay", [("id3", "TDLY"); ("xmp", "id3:playlistDelay")]);
   ("OriginalReleaseTime", [("id3", "TDOR,v2.4+"); ("xmp", "id3:originalReleaseTime,v2.4+")]);
   ("RecordingTime", [("id3", "TDRC,v2.4+"); ("xmp", "id3:recordingTime,v2.4+")]);
   ("ReleaseTime", [("id3", "TDRL,v2.4+"); ("xmp", "id3:releaseTime,v2.4+")]);
   ("TaggingTime", [("id3", "TDTG,v2.4+"); ("xmp", "id3:taggingTime,v2.4+")]);
   ("EncodedBy", [("id3", "TENC"); ("xmp", "id3:encodedBy")]);
   ("Lyricist", [("id3", "TEXT"); ("xmp", "id3:lyricist")]);
   ("FileType", [("id3", "TFLT"); ("xmp", "id3:fileType")]);
   ("Time_v23", [("id3", "TIME,v2.3-"); ("xmp", "id3:time_v23,v2.3-")]);
   ("InvolvedPeopleList", [("id3", "TIPL,v2.4+"); ("xmp", "id3:involvedPeopleList,v2.4+")]);
   ("ContentGroupDescription", [("id3", "TIT1"); ("xmp", "id3:contentGroupDescription")]);
   ("TitleDescription", [("id3", "TIT2"); ("xmp", "id3:titleDescription")]);
   ("SubTitle", [("id3", "TIT3"); ("xmp", "id3:subTitle")]);
   ("InitialKey", [("id3", "TKEY"); ("xmp", "id3:initialKey")]);
   ("Language", [("id3", "TLAN"); ("xmp", "id3:language")]);
   ("Length", [("id3", "TLEN"); ("xmp", "id3:length")]);
   ("MusicianCreditsList", [("id3", "TMCL,v2.4+"); ("xmp", "id3:musicianCreditsList,v2.4+")]);
   ("MediaType", [("id3", "TMED"); ("xmp", "id3:mediaType")]);
   ("Mood", [("id3", "TMOO,v2.4+"); ("xmp", "id3:mood,v2.4+")]);
   ("OriginalAlbumTitle", [("id3", "TOAL"); ("xmp", "id3:originalAlbumTitle")]);
   ("OriginalFilename", [("id3", "TOFN"); ("xmp", "id3:originalFilename")]);
   ("OriginalLyricist", [("id3", "TOLY"); ("xmp", "id3:originalLyricist")]);
   ("OriginalArtist", [("id3", "TOPE"); ("xmp", "id3:originalArtist")]);
   ("OriginalReleaseYear_v23", [("id3", "TORY,v2.3-"); ("xmp", "id3:originalReleaseYear_v23,v2.3-")]);
   ("FileOwner", [("id3", "TOWN"); ("xmp", "id3:fileOwner")]);
   ("LeadPerformer", [("id3", "TPE1"); ("xmp", "id3:leadPerformer")]);
   ("Band", [("id3", "TPE2"); ("xmp", "id3:band")]);
   ("Conductor", [("id3", "TPE3"); ("xmp", "id3:conductor")]);
   ("ModifiedBy", [("id3", "TPE4"); ("xmp", "id3:modifiedBy")]);
   ("PartOfASet", [("id3", "TPOS"); ("xmp", "id3:partOfASet")]);
   ("ProducedNotice", [("id3", "TPRO,v2.4+"); ("xmp", "id3:producedNotice,v2.4+")]);
   ("Publisher", [("id3", "TPUB"); ("xmp", "id3:publisher")]);
   ("TrackNumber", [("id3", "TRCK"); ("xmp", "id3:trackNumber")]);
   ("RecordingDates", [("id3", "TRDA"); ("xmp", "id3:recordingDates")]);
   ("InternetRadioStationName", [("id3", "TRSN"); ("xmp", "id3:internetRadioStationName")]);
   ("InternetRadioStationOwner", [("id3", "TRSO"); ("xmp", "id3:internetRadioStationOwner")]);
   ("Size_v23", [("id3", "TSIZ,v2.3-"); ("xmp", "id3:size_v23,v2.3-")]);
   ("AlbumSortOrder", [("id3", "TSOA,v2.4+"); ("xmp", "id3:albumSortOrder,v2.4+")]);
   ("PerformerSortOrder", [("id3", "TSOP,v2.4+"); ("xmp", "id3:performerSortOrder,v2.4+")]);
   ("TitleSortOrder", [("id3", "TSOT,v2.4+"); ("xmp", "id3:titleSortOrder,v2.4+")]);
   ("InternationalStandardRecordingCode", [("id3", "TSRC"); ("xmp", "id3:internationalStandardRecordingCode")]);
   ("EncodedWith", [("id3", "TSSE"); ("xmp", "id3:encodedWith")]);
   ("SetSubtitle", [("id3", "TSST,v2.4+"); ("xmp", "id3:setSubtitle,v2.4+")]);
   ("Year_v23", [("id3", "TYER,v2.3-"); ("xmp", "id3:year_v23,v2.3-")]);
   ("UserText", [("id3", "TXXX"); ("xmp", "id3:userText")]);
   ("UniqueFileIdentifier", [("id3", "UFID"); ("xmp", "id3:uniqueFileIdentifier")]);
   ("TermsOfUse", [("id3", "USER"); ("xmp", "id3:termsOfUse")]);
   ("UnsynchronizedLyrics", [("id3", "USLT"); ("xmp", "id3:unsynchronizedLyrics")]);
   ("CommercialInformation", [("id3", "WCOM"); ("xmp", "id3:commercialInformation")]);
   ("CopyrightInformation", [("id3", "WCOP"); ("xmp", "id3:copyrightInformation")]);
   ("OfficialAudioFileWebpage", [("id3", "WOAF"); ("xmp", "id3:officialAudioFileWebpage")]);
   ("OfficialArtistWebpage", [("id3", "WOAR"); ("xmp", "id3:officialArtistWebpage")]);
   ("OfficialAudioSourceWebpage", [("id3", "WOAS"); ("xmp", "id3:officialAudioSourceWebpage")]);
   ("OfficialInternetRadioStationHomepage", [("id3", "WORS"); ("xmp", "id3:officialInternetRadioStationHomepage")]);
   ("Payment", [("id3", "WPAY"); ("xmp", "id3:payment")]);
   ("OfficialPublisherWebpage", [("id3", "WPUB"); ("xmp", "id3:officialPublisherWebpage")]);
   ("UserURL", [("id3", "WXXX"); ("xmp", "id3:userURL")]);
   ("AccessibilityText", [("id3", "ATXT"); ("xmp", "id3:accessibilityText")]);
   ("Chapters", [("id3", "CHAP"); ("xmp", "id3:chapters")]);
   ("TableOfContents", [("id3", "CTOC"); ("xmp", "id3:tableOfContents")]);
   ("AlbumArtistSortOrder", [("id3", "TSO2"); ("xmp", "id3:albumArtistSortOrder")]);
   ("ComposerSortOrder", [("id3", "TSOC"); ("xmp", "id3:composerSortOrder")]);
   ("IsCompilation", [("id3", "TCMP"); ("xmp", "id3:isCompilation")]);
   ("ITunesU", [("id3", "ITNU"); ("xmp", "id3:iTunesU")]);
   ("IsPodcast", [("id3", "PCST"); ("xmp", "id3:isPodcast")]);
   ("PodcastDescription", [("id3", "TDES"); ("xmp", "id3:podcastDescription")]);
   ("PodcastID", [("id3", "TGID"); ("xmp", "id3:podcastID")]);
   ("PodcastURL", [("id3", "WFED"); ("xmp", "id3:podcastURL")]);
   ("PodcastKeywords", [("id3", "TKWD"); ("xmp", "id3:podcastKeywords")]);
   ("PodcastCategory", [("id3", "TCAT"); ("xmp", "id3:podcastCategory")]);
   ("Extension", [("id3", ",any"); ("xmp", "id3:extension")])].
(* models/itunes/model.go:107-201 *)
Definition st_itunes_ITunesMetadata : struct_tags := [
   ("AccountKind", [("iTunes", "akID"); ("xmp", "iTunes:AccountKind")]);
   ("Acknowledgement", [("iTunes", "©cak"); ("xmp", "iTunes:Acknowledgement")]);
   ("Album", [("iTunes", "©alb"); ("xmp", "iTunes:Album")]);
   ("AlbumArtist", [("iTunes", "aART"); ("xmp", "iTunes:AlbumArtist")]);
   ("AppleID", [("iTunes", "apID"); ("xmp", "iTunes:AppleID")]);
   ("Arranger", [("iTunes", "©arg"); ("xmp", "iTunes:Arranger")]);
   ("ArtDirector", [("iTunes", "©ard"); ("xmp", "iTunes:ArtDirector")]);
   ("Artist", [("iTunes", "©ART"); ("xmp", "iTunes:Artist")]);
   ("ArtistID", [("iTunes", "atID"); ("xmp", "iTunes:ArtistID")]);
   ("Author", [("iTunes", "©aut"); ("xmp", "iTunes:Author")]);
   ("BeatsPerMin", [("iTunes", "tmpo"); ("xmp", "iTunes:BeatsPerMin")]);
   ("Comment", [("iTunes", "©cmt"); ("xmp", "iTunes:Comment")]);
   ("Composer", [("iTunes", "©wrt"); ("xmp", "iTunes:Composer")]);
   ("Conductor", [("iTunes", "©con"); ("xmp", "iTunes:Conductor")]);
   ("IsExplicit", [("iTunes", "rtng"); ("xmp", "iTunes:IsExplicit")]);
   ("Copyright", [("iTunes", "cprt"); ("xmp", "iTunes:Copyright")]);
   ("CoverArt", [("iTunes", "covr"); ("xmp", "iTunes:CoverArt")]);
   ("CoverUrl", [("iTunes", "cvru"); ("xmp", "iTunes:CoverUrl")]);
   ("Credits", [("iTunes", "©src"); ("xmp", "iTunes:Credits")]);
   ("Description", [("iTunes", "©des"); ("xmp", "iTunes:Description")]);
   ("Director", [("iTunes", "©dir"); ("xmp", "iTunes:Director")]);
   ("DiscNumber", [("iTunes", "disk"); ("xmp", "iTunes:DiscNumber")]);
   ("Duration", [("iTunes", "dcfD"); ("xmp", "iTunes:Duration")]);
   ("EncodedBy", [("iTunes", "©enc"); ("xmp", "iTunes:EncodedBy")]);
   ("EncodingTool", [("iTunes", "©too"); ("xmp", "iTunes:EncodingTool")]);
   ("EQ", [("iTunes", "©equ"); ("xmp", "iTunes:EQ")]);
   ("ExecProducer", [("iTunes", "©xpd"); ("xmp", "iTunes:ExecProducer")]);
   ("GenreCode", [("iTunes", "gnre"); ("xmp", "iTunes:GenreCode")]);
   ("GenreID", [("iTunes", "geID"); ("xmp", "iTunes:GenreID")]);
   ("GenreName", [("iTunes", "©gen"); ("xmp", "iTunes:GenreName")]);
   ("Grouping", [("iTunes", "grup"); ("xmp", "iTunes:Grouping")]);
   ("IconUrl", [("iTunes", "icnu"); ("xmp", "iTunes:IconUrl")]);
   ("InfoUrl", [("iTunes", "infu"); ("xmp", "iTunes:InfoUrl")]);
   ("IsDiscCompilation", [("iTunes", "cpil"); ("xmp", "iTunes:IsDiscCompilation")]);
   ("IsGaplessPlayback", [("iTunes", "pgap"); ("xmp", "iTunes:IsGaplessPlayback")]);
   ("IsHDVideo", [("iTunes", "hdvd"); ("xmp", "iTunes:IsHDVideo")]);
   ("IsiTunesU", [("iTunes", "itnu"); ("xmp", "iTunes:IsiTunesU")]);
   ("IsPodcast", [("iTunes", "pcst"); ("xmp", "iTunes:IsPodcast")]);
   ("Keywords", [("iTunes", "keyw"); ("xmp", "iTunes:Keywords")]);
   ("LinerNotes", [("iTunes", "©lnt"); ("xmp", "iTunes:LinerNotes")]);
   ("Lyrics", [("iTunes", "©lyr"); ("xmp", "iTunes:Lyrics")]);
   ("LyricsUrl", [("iTunes", "lrcu"); ("xmp", "iTunes:LyricsUrl")]);
   ("MediaType", [("iTunes", "stik"); ("xmp", "iTunes:MediaType")]);
   ("Narrator", [("iTunes", "©nrt"); ("xmp", "iTunes:Narrator")]);
   ("OnlineExtras", [("iTunes", "©url"); ("xmp", "iTunes:OnlineExtras")]);
   ("OriginalArtist", [("iTunes", "©ope"); ("xmp", "iTunes:OriginalArtist")]);
   ("Performer", [("iTunes", "©prf"); ("xmp", "iTunes:Performer")]);
   ("PhonogramRights", [("iTunes", "©phg"); ("xmp", "iTunes:PhonogramRights")]);
   ("PlaylistID", [("iTunes", "plID"); ("xmp", "iTunes:PlaylistID")]);
   ("PodcastCategory", [("iTunes", "catg"); ("xmp", "iTunes:PodcastCategory")]);
   ("PodcastGuid", [("iTunes", "egid"); ("xmp", "iTunes:PodcastGuid")]);
   ("PodcastUrl", [("iTunes", "purl"); ("xmp", "iTunes:PodcastUrl")]);
   ("Producer", [("iTunes", "©prd"); ("xmp", "iTunes:Producer")]);
   ("ProductID", [("iTunes", "prID"); ("xmp", "iTunes:ProductID")]);
   ("Publisher", [("iTunes", "©pub"); ("xmp", "iTunes:Publisher")]);
   ("PurchaseDate", [("iTunes", "purd"); ("xmp", "iTunes:PurchaseDate")]);
   ("RatingPercent", [("iTunes", "rate"); ("xmp", "iTunes:RatingPercent")]);
   ("RecordCompany", [("iTunes", "©mak"); ("xmp", "iTunes:RecordCompany")]);
   ("ReleaseDate", [("iTunes", "©day"); ("xmp", "iTunes:ReleaseDate")]);
   ("ShowEpisodeName", [("iTunes", "tves"); ("xmp", "iTunes:ShowEpisodeName")]);
   ("ShowEpisodeNum", [("iTunes", "tven"); ("xmp", "iTunes:ShowEpisodeNum")]);
   ("ShowName", [("iTunes", "tvsh"); ("xmp", "iTunes:ShowName")]);
   ("ShowSeasonNum", [("iTunes", "tvsn"); ("xmp", "iTunes:ShowSeasonNum")]);
   ("Soloist", [("iTunes", "©sol"); ("xmp", "iTunes:Soloist")]);
   ("SongID", [("iTunes", "cnID"); ("xmp", "iTunes:SongID")]);
   ("SortAlbum", [("iTunes", "soal"); ("xmp", "iTunes:SortAlbum")]);
   ("SortAlbumArtist", [("iTunes", "soaa"); ("xmp", "iTunes:SortAlbumArtist")]);
   ("SortArtist", [("iTunes", "soar"); ("xmp", "iTunes:SortArtist")]);
   ("SortComposer", [("iTunes", "soco"); ("xmp", "iTunes:SortComposer")]);
   ("SortName", [("iTunes", "sonm"); ("xmp", "iTunes:SortName")]);
   ("SortShow", [("iTunes", "sosn"); ("xmp", "iTunes:SortShow")]);
   ("SoundEngineer", [("iTunes", "©sne"); ("xmp", "iTunes:SoundEngineer")]);
   ("StoreFrontID", [("iTunes", "sfID"); ("xmp", "iTunes:StoreFrontID")]);
   ("Synopsis", [("iTunes", "ldes"); ("xmp", "iTunes:Synopsis")]);
   ("Thanks", [("iTunes", "©thx"); ("xmp", "iTunes:Thanks")]);
   ("Title", [("iTunes", "©nam"); ("xmp", "iTunes:Title")]);
   ("ToolInfo", [("iTunes", "tool"); ("xmp", "iTunes:ToolInfo")]);
   ("TrackNumber", [("iTunes", "trkn"); ("xmp", "iTunes:TrackNumber")]);
   ("TrackSubTitle", [("iTunes", "©st3"); ("xmp", "iTunes:TrackSubTitle")]);
   ("TVNetworkName", [("iTunes", "tvnn"); ("xmp", "iTunes:TVNetworkName")]);
   ("XID", [("iTunes", "xid "); ("xmp", "iTunes:XID")]);
   ("ContentRating", [("iTunes", "iTunEXTC"); ("xmp", "iTunes:ContentRating")]);
   ("SoundCheck", [("iTunes", "iTunNORM"); ("xmp", "iTunes:SoundCheck")]);
   ("SMPB", [("iTunes", "iTunSMPB"); ("xmp", "iTunes:SMPB")]);
   ("IsGaplessPlayback2", [("iTunes", "iTunPGAP"); ("xmp", "iTunes:IsGaplessPlayback2")]);
   ("MovieInfo", [("iTunes", "iTunMOVI"); ("xmp", "iTunes:MovieInfo")]);
   ("CDDBToc", [("iTunes", "iTunes_CDDB_1"); ("xmp", "iTunes:CDDBToc")]);
   ("CDDBTrackNumber", [("iTunes", "iTunes_CDDB_TrackNumber"); ("xmp", "iTunes:CDDBTrackNumber")]);
   ("CDDBMediaID", [("iTunes", "iTunes_CDDB_IDs"); ("xmp", "iTunes:CDDBMediaID")]);
   ("EncodingParams", [("iTunes", "Encoding Params"); ("xmp", "iTunes:EncodingParams")]);
   ("Extension", [("iTunes", ",any"); ("xmp", "iTunes:extension")])].
(* models/ixml/model.go:71-95 *)
Definition st_ixml_IXML : struct_tags := [
   ("XMLName", [("xml", "BWFXML"); ("xmp", "-")]);
   ("Version", [("xml", "IXML_VERSION"); ("xmp", "iXML:version")]);
   ("Project", [("xml", "PROJECT,omitempty"); ("xmp", "iXML:project")]);
   ("SceneName", [("xml", "SCENE,omitempty"); ("xmp", "iXML:sceneName")]);
   ("SoundRoll", [("xml", "TAPE,omitempty"); ("xmp", "iXML:soundRoll")]);
   ("Take", [("xml", "TAKE,omitempty"); ("xmp", "iXML:take")]);
   ("TakeType", [("xml", "TAKE_TYPE,omitempty"); ("xmp", "iXML:takeType")]);
   ("IsNotGood", [("xml", "NO_GOOD,omitempty"); ("xmp", "-")]);
   ("IsFalseStart", [("xml", "FALSE_START,omitempty"); ("xmp", "-")]);
   ("IsWildTrack", [("xml", "WILD_TRACK,omitempty"); ("xmp", "-")]);
   ("PreRecordSamplecount", [("xml", "PRE_RECORD_SAMPLECOUNT,omitempty"); ("xmp", "-")]);
   ("IsCircled", [("xml", "CIRCLED,omitempty"); ("xmp", "iXML:circled")]);
   ("FileUID", [("xml", "FILE_UID,omitempty"); ("xmp", "iXML:fileUid")]);
   ("UserBits", [("xml", "UBITS,omitempty"); ("xmp", "iXML:userBits")]);
   ("Note", [("xml", "NOTE,omitempty"); ("xmp", "iXML:note")]);
   ("SyncPoints", [("xml", "SYNC_POINT_LIST,omitempty"); ("xmp", "iXML:syncPoints")]);
   ("Speed", [("xml", "SPEED,omitempty"); ("xmp", "iXML:speed")]);
   ("History", [("xml", "HISTORY,omitempty"); ("xmp", "iXML:history")]);
   ("FileSet", [("xml", "FILE_SET,omitempty"); ("xmp", "iXML:fileSet")]);
   ("TrackList", [("xml", "TRACK_LIST,omitempty"); ("xmp", "iXML:trackList")]);
   ("UserData", [("xml", "USER,omitempty"); ("xmp", "iXML:userData")]);
   ("Location", [("xml", "LOCATION,omitempty"); ("xmp", "iXML:location")]);
   ("Extension", [("xml", ",any"); ("xmp", "iXML:extension,any")])].
(* models/mp4/model.go:37-55 *)
Definition st_mp4_MP4Info : struct_tags := [
   ("AlbumAndTrack", [("mp4", "albm"); ("xmp", "mp4:AlbumAndTrack")]);
   ("Author", [("mp4", "auth"); ("xmp", "mp4:Author")]);
   ("Classification", [("mp4", "clsf"); ("xmp", "mp4:Classification")]);
   ("CollectionName", [("mp4", "coll"); ("xmp", "mp4:CollectionName")]);
   ("Copyright", [("mp4", "cprt"); ("xmp", "mp4:Copyright")]);
   ("CreationDate", [("mp4", "date"); ("xmp", "mp4:CreationDate")]);
   ("Description", [("mp4", "dscp"); ("xmp", "mp4:Description")]);
   ("GenreName", [("mp4", "gnre"); ("xmp", "mp4:GenreName")]);
   ("KeywordList", [("mp4", "kywd"); ("xmp", "mp4:KeywordList")]);
   ("Location", [("mp4", "loci"); ("xmp", "mp4:Location")]);
   ("MediaRatingText", [("mp4", "rtng"); ("xmp", "mp4:MediaRatingText")]);
   ("Performer", [("mp4", "perf"); ("xmp", "mp4:Performer")]);
   ("RecordingYear", [("mp4", "yrrc"); ("xmp", "mp4:RecordingYear")]);
   ("TaggedCharacteristic", [("mp4", "tagc"); ("xmp", "mp4:TaggedCharacteristic")]);
   ("Thumbnail", [("mp4", "thmb"); ("xmp", "mp4:Thumbnail")]);
   ("Title", [("mp4", "titl"); ("xmp", "mp4:Title")]);
   ("UserRating", [("mp4", "urat"); ("xmp", "mp4:UserRating")])].
(* models/pdf/model.go:54-67 *)
Definition st_pdf_PDFInfo : struct_tags := [
   ("Title", [("xmp", "dc:title")]);
   ("Author", [("xmp", "dc:creator")]);
   ("Subject", [("xmp", "dc:description")]);
   ("Keywords", [("xmp", "pdf:Keywords")]);
   ("Creator", [("xmp", "xmp:CreatorTool")]);
   ("Producer", [("xmp", "pdf:Producer")]);
   ("PDFVersion", [("xmp", "pdf:PDFVersion")]);
   ("CreationDate", [("xmp", "xmp:CreateDate")]);
   ("ModifyDate", [("xmp", "xmp:ModifyDate")]);
   ("Trapped", [("xmp", "pdf:Trapped")]);
   ("Copyright", [("xmp", "pdf:Copyright")]);
   ("Marked", [("xmp", "pdf:Marked")])].
(* models/pm/model.go:98-117 *)
Definition st_pm_Photomechanic : struct_tags := [
   ("EditStatus", [("xmp", "photomechanic:EditStatus")]);
   ("ColorClass", [("xmp", "photomechanic:ColorClass")]);
   ("CountryCode", [("xmp", "photomechanic:CountryCode")]);
   ("TimeCreated", [("xmp", "photomechanic:TimeCreated")]);
   ("Prefs", [("xmp", "photomechanic:Prefs")]);
   ("Tagged", [("xmp", "photomechanic:Tagged")]);
   ("Version", [("xmp", "photomechanic:PMVersion")]);
   ("ColorClassEval", [("xmp", "photomechanic:ColorClassEval")]);
   ("ColorClassApply", [("xmp", "photomechanic:ColorClassApply")]);
   ("RatingEval", [("xmp", "photomechanic:RatingEval")]);
   ("RatingApply", [("xmp", "photomechanic:RatingApply")]);
   ("TagEval", [("xmp", "photomechanic:TagEval")]);
   ("TagApply", [("xmp", "photomechanic:TagApply")]);
   ("CaptionMergeStyle", [("xmp", "photomechanic:CaptionMergeStyle")]);
   ("ApplyAPCustom", [("xmp", "photomechanic:ApplyAPCustom")]);
   ("MergeAPCustom", [("xmp", "photomechanic:MergeAPCustom")]);
   ("ApplyDateType", [("xmp", "photomechanic:ApplyDateType")]);
   ("FieldsToApply", [("xmp", "photomechanic:FieldsToApply")])].
(* models/ps/model.go:54-79 *)
Definition st_ps_PhotoshopInfo : struct_tags := [
   ("AuthorsPosition", [("xmp", "photoshop:AuthorsPosition")]);
   ("CaptionWriter", [("xmp", "photoshop:CaptionWriter")]);
   ("Category", [("xmp", "photoshop:Category")]);
   ("City", [("xmp", "photoshop:City")]);
   ("ColorMode", [("xmp", "photoshop:ColorMode")]);
   ("Country", [("xmp", "photoshop:Country")]);
   ("Credit", [("xmp", "photoshop:Credit")]);
   ("DateCreated", [("xmp", "photoshop:DateCreated")]);
   ("DocumentAncestors", [("xmp", "photoshop:DocumentAncestors")]);
   ("Headline", [("xmp", "photoshop:Headline")]);
   ("History", [("xmp", "photoshop:History")]);
   ("ICCProfile", [("xmp", "photoshop:ICCProfile")]);
   ("Instructions", [("xmp", "photoshop:Instructions")]);
   ("Layer", [("xmp", "photoshop:Layer")]);
   ("SidecarForExtension", [("xmp", "photoshop:SidecarForExtension")]);
   ("Source", [("xmp", "photoshop:Source")]);
   ("State", [("xmp", "photoshop:State")]);
   ("SupplementalCategories", [("xmp", "photoshop:SupplementalCategories")]);
   ("TextLayers", [("xmp", "photoshop:TextLayers")]);
   ("TransmissionReference", [("xmp", "photoshop:TransmissionReference")]);
   ("Urgency", [("xmp", "photoshop:Urgency")]);
   ("EmbeddedXMPDigest", [("xmp", "photoshop:EmbeddedXMPDigest,omit")]);
   ("LegacyIPTCDigest", [("xmp", "photoshop:LegacyIPTCDigest,omit")])].
(* models/qt/model.go:74-86 *)
Definition st_qt_QtInfo : struct_tags := [
   ("Udta", [("qt", "-"); ("xmp", "qt:udta")]);
   ("Mdta", [("qt", "-"); ("xmp", "qt:mdta")]);
   ("Player", [("qt", "-"); ("xmp", "qt:player")]);
   ("ProApps", [("qt", "-"); ("xmp", "qt:proapps")]);
   ("IXML", [("qt", "-"); ("xmp", "-")]);
   ("XMP", [("qt", "XMP_"); ("xmp", "-")]);
   ("Extension", [("qt", ",any"); ("xmp", "qt:extension")])].
(* models/qt/qt_userdata.go:28-166 *)
Definition st_qt_QtUserdata : struct_tags := [
   ("Album", [("qt", "©alb"); ("xmp", "qt:Album")]);
   ("Arranger", [("qt", "©arg"); ("xmp", "qt:Arranger")]);
   ("Artist", [("qt", "©ART"); ("xmp", "qt:Artist")]);
   ("Author", [("qt", "©aut"); ("xmp", "qt:Author")]);
   ("Chapter", [("qt", "©chp"); ("xmp", "qt:Chapter")]);
   ("Comment", [("qt", "©cmt"); ("xmp", "qt:Comment")]);
   ("Composer", [("qt", "©com"); ("xmp", "qt:Composer")]);
   ("Copyright", [("qt", "©cpy"); ("xmp", "qt:Copyright")]);
   ("ReleaseDate", [("qt", "©day"); ("xmp", "qt:ReleaseDate")]);
   ("Description", [("qt", "©des"); ("xmp", "qt:Description")]);
   ("Director", [("qt", "©dir"); ("xmp", "qt:Director")]);
   ("Disclaimer", [("qt", "©dis"); ("xmp", "qt:Disclaimer")]);
   ("EncodedBy", [("qt", "©enc"); ("xmp", "qt:EncodedBy")]);
   ("Title", [("qt", "©nam"); ("xmp", "qt:Title")]);
   ("GenreName", [("qt", "©gen"); ("xmp", "qt:GenreName")]);
   ("HostComputer", [("qt", "©hst"); ("xmp", "qt:HostComputer")]);
   ("Information", [("qt", "©inf"); ("xmp", "qt:Information")]);
   ("Keywords", [("qt", "©key"); ("xmp", "qt:Keywords")]);
   ("FileCreator", [("qt", "©mak"); ("xmp", "qt:FileCreator")]);
   ("FileCreatorModel", [("qt", "©mod"); ("xmp", "qt:FileCreatorModel")]);
   ("OriginalArtist", [("qt", "©ope"); ("xmp", "qt:OriginalArtist")]);
   ("FileFormat", [("qt", "©fmt"); ("xmp", "qt:FileFormat")]);
   ("Credits", [("qt", "©src"); ("xmp", "qt:Credits")]);
   ("Performer", [("qt", "©prf"); ("xmp", "qt:Performer")]);
   ("Producer", [("qt", "©prd"); ("xmp", "qt:Producer")]);
   ("Publisher", [("qt", "©pub"); ("xmp", "qt:Publisher")]);
   ("Product", [("qt", "©PRD"); ("xmp", "qt:Product")]);
   ("FileCreatorSoftware", [("qt", "©swr"); ("xmp", "qt:FileCreatorSoftware")]);
   ("PlaybackRequirements", [("qt", "©req"); ("xmp", "qt:PlaybackRequirements")]);
   ("Track", [("qt", "©trk"); ("xmp", "qt:Track")]);
   ("CopyWarning", [("qt", "©wrn"); ("xmp", "qt:CopyWarning")]);
   ("Writer", [("qt", "©wrt"); ("xmp", "qt:Writer")]);
   ("Url", [("qt", "©url"); ("xmp", "qt:Url")]);
   ("LocationGPS", [("qt", "©xyz"); ("xmp", "qt:LocationGPS")]);
   ("TrackName", [("qt", "tnam"); ("xmp", "qt:TrackName")]);
   ("PhonogramRights", [("qt", "©phg"); ("xmp", "qt:PhonogramRights")]);
   ("DisplayName", [("qt", "name"); ("xmp", "qt:DisplayName")]);
   ("TaggedCharacteristic", [("qt", "tagc"); ("xmp", "qt:TaggedCharacteristic")]);
   ("AudioBookReleaseDate", [("qt", "rldt"); ("xmp", "qt:AudioBookReleaseDate")]);
   ("ClipFileName", [("qt", "clfn"); ("xmp", "qt:ClipFileName")]);
   ("ClipID", [("qt", "clid"); ("xmp", "qt:ClipID")]);
   ("ContentDistributorID", [("qt", "cdis"); ("xmp", "qt:ContentDistributorID")]);
   ("ContentID", [("qt", "ccid"); ("xmp", "qt:ContentID")]);
   ("CreationDate", [("qt", "date"); ("xmp", "qt:CreationDate")]);
   ("Grouping", [("qt", "©grp"); ("xmp", "qt:Grouping")]);
   ("GUID", [("qt", "GUID"); ("xmp", "qt:GUID")]);
   ("ISRCCode", [("qt", "©isr"); ("xmp", "qt:ISRCCode")]);
   ("AlbumArtist", [("qt", "albr"); ("xmp", "qt:AlbumArtist")]);
   ("Angle", [("qt", "angl"); ("xmp", "qt:Angle")]);
   ("ArrangerKeywords", [("qt", "©ark"); ("xmp", "qt:ArrangerKeywords")]);
   ("AudibleTags", [("qt", "tags"); ("xmp", "qt:AudibleTags")]);
   ("CameraID", [("qt", "cmid"); ("xmp", "qt:CameraID")]);
   ("CameraManufacturer", [("qt", "manu"); ("xmp", "qt:CameraManufacturer")]);
   ("CameraModel", [("qt", "modl"); ("xmp", "qt:CameraModel")]);
   ("CameraName", [("qt", "cmnm"); ("xmp", "qt:CameraName")]);
   ("CameraSerialNumber", [("qt", "slno"); ("xmp", "qt:CameraSerialNumber")]);
   ("ChapterList", [("qt", "chpl"); ("xmp", "qt:ChapterList")]);
   ("ComposerKeywords", [("qt", "©cok"); ("xmp", "qt:ComposerKeywords")]);
   ("Edit1", [("qt", "©ed1"); ("xmp", "qt:Edit1")]);
   ("Edit2", [("qt", "©ed2"); ("xmp", "qt:Edit2")]);
   ("Edit3", [("qt", "©ed3"); ("xmp", "qt:Edit3")]);
   ("Edit4", [("qt", "©ed4"); ("xmp", "qt:Edit4")]);
   ("Edit5", [("qt", "©ed5"); ("xmp", "qt:Edit5")]);
   ("Edit6", [("qt", "©ed6"); ("xmp", "qt:Edit6")]);
   ("Edit7", [("qt", "©ed7"); ("xmp", "qt:Edit7")]);
   ("Edit8", [("qt", "©ed8"); ("xmp", "qt:Edit8")]);
   ("Edit9", [("qt", "©ed9"); ("xmp", "qt:Edit9")]);
   ("FileCreatorModel2", [("qt", "©mdl"); ("xmp", "qt:FileCreatorModel2")]);
   ("FileCreatorUrl", [("qt", "©mal"); ("xmp", "qt:FileCreatorUrl")]);
   ("Lyrics", [("qt", "©lyr"); ("xmp", "qt:Lyrics")]);
   ("LyricsUrl", [("qt", "lrcu"); ("xmp", "qt:LyricsUrl")]);
   ("OriginalFormat", [("qt", "orif"); ("xmp", "qt:OriginalFormat")]);
   ("OriginalSource", [("qt", "oris"); ("xmp", "qt:OriginalSource")]);
   ("PerformerKeywords", [("qt", "©prk"); ("xmp", "qt:PerformerKeywords")]);
   ("PerformerUrl", [("qt", "©prl"); ("xmp", "qt:PerformerUrl")]);
   ("ProducerKeywords", [("qt", "©pdk"); ("xmp", "qt:ProducerKeywords")]);
   ("ProductVersion", [("qt", "VERS"); ("xmp", "qt:ProductVersion")]);
   ("RecordLabelName", [("qt", "©lab"); ("xmp", "qt:RecordLabelName")]);
   ("RecordLabelUrl", [("qt", "©lal"); ("xmp", "qt:RecordLabelUrl")]);
   ("Reel", [("qt", "reel"); ("xmp", "qt:Reel")]);
   ("Scene", [("qt", "scen"); ("xmp", "qt:Scene")]);
   ("Shot", [("qt", "shot"); ("xmp", "qt:Shot")]);
   ("SongWriter", [("qt", "©swf"); ("xmp", "qt:SongWriter")]);
   ("SongWriterKeywords", [("qt", "©swk"); ("xmp", "qt:SongWriterKeywords")]);
   ("Subtitle", [("qt", "©snm"); ("xmp", "qt:Subtitle")]);
   ("SubtitleKeywords", [("qt", "©snk"); ("xmp", "qt:SubtitleKeywords")]);
   ("Synopsis", [("qt", "ldes"); ("xmp", "qt:Synopsis")]);
   ("TitleKeywords", [("qt", "©nak"); ("xmp", "qt:TitleKeywords")]);
   ("CoverArt", [("qt", "covr"); ("xmp", "qt:CoverArt")]);
   ("CollectionUser", [("qt", "coll"); ("xmp", "qt:CollectionUser")]);
   ("UserRating", [("qt", "rtng"); ("xmp", "qt:UserRating")]);
   ("RecordingYear", [("qt", "yrrc"); ("xmp", "qt:RecordingYear")]);
   ("ApertureMode", [("qt", "apmd"); ("xmp", "qt:ApertureMode")]);
   ("FlightPitch", [("qt", "©fpt"); ("xmp", "qt:FlightPitch")]);
   ("FlightRoll", [("qt", "©frl"); ("xmp", "qt:FlightRoll")]);
   ("FlightSpeedX", [("qt", "©xsp"); ("xmp", "qt:FlightSpeedX")]);
   ("FlightSpeedY", [("qt", "©ysp"); ("xmp", "qt:FlightSpeedY")]);
   ("FlightSpeedZ", [("qt", "©zsp"); ("xmp", "qt:FlightSpeedZ")]);
   ("FlightYaw", [("qt", "©fyw"); ("xmp", "qt:FlightYaw")]);
   ("GimbalPitch", [("qt", "©gpt"); ("xmp", "qt:GimbalPitch")]);
   ("GimbalRoll", [("qt", "©grl"); ("xmp", "qt:GimbalRoll")]);
   ("GimbalYaw", [("qt", "©gyw"); ("xmp", "qt:GimbalYaw")]);
   ("HintInfo", [("qt", "hnti"); ("xmp", "qt:HintInfo")]);
   ("HintTrackInfo", [("qt", "hinf"); ("xmp", "qt:HintTrackInfo")]);
   ("HintVersion", [("qt", "hinv"); ("xmp", "qt:HintVersion")]);
   ("PrintToVideo", [("qt", "ptv "); ("xmp", "qt:PrintToVideo")]);
   ("TrackType", [("qt", "kgtt"); ("xmp", "qt:TrackType")]);
   ("WindowLocation", [("qt", "WLOC"); ("xmp", "qt:WindowLocation")]);
   ("GoogleHostHeader", [("qt", "gshh"); ("xmp", "qt:GoogleHostHeader")]);
   ("GooglePingMessage", [("qt", "gspm"); ("xmp", "qt:GooglePingMessage")]);
   ("GooglePingURL", [("qt", "gspu"); ("xmp", "qt:GooglePingURL")]);
   ("GoogleSourceData", [("qt", "gssd"); ("xmp", "qt:GoogleSourceData")]);
   ("GoogleStartTime", [("qt", "gsst"); ("xmp", "qt:GoogleStartTime")]);
   ("GoogleTrackDuration", [("qt", "gstd"); ("xmp", "qt:GoogleTrackDuration")]);
   ("CanonCodec", [("qt", "CNCV"); ("xmp", "qt:CanonCodec")]);
   ("CanonModel", [("qt", "CNMN"); ("xmp", "qt:CanonModel")]);
   ("CanonFirmware", [("qt", "CNFV"); ("xmp", "qt:CanonFirmware")]);
   ("CanonThumbnail", [("qt", "CNDA"); ("xmp", "qt:CanonThumbnail")])].
(* models/qt/qt_metadata.go:41-111 *)
Definition st_qt_QtMetadata : struct_tags := [
   ("Album", [("qt", "com.apple.quicktime.album"); ("qt", "©alb"); ("xmp", "qt:Album")]);
   ("Arranger", [("qt", "com.apple.quicktime.arranger"); ("qt", "©arg"); ("xmp", "qt:Arranger")]);
   ("Artist", [("qt", "com.apple.quicktime.artist"); ("qt", "albr"); ("xmp", "qt:Artist")]);
   ("Artwork", [("qt", "com.apple.quicktime.artwork"); ("qt", "covr"); ("xmp", "qt:Artwork")]);
   ("Author", [("qt", "com.apple.quicktime.author"); ("qt", "©aut"); ("xmp", "qt:Author")]);
   ("CameraFrameReadoutTime", [("qt", "com.apple.quicktime.camera.framereadouttimeinmicroseconds"); ("qt", "-"); ("xmp", "qt:CameraFrameReadoutTime")]);
   ("CameraIdentifier", [("qt", "com.apple.quicktime.camera.identifier"); ("qt", "cmid"); ("xmp", "qt:CameraIdentifier")]);
   ("CollectionUser", [("qt", "com.apple.quicktime.collection.user"); ("qt", "coll"); ("xmp", "qt:CollectionUser")]);
   ("Comment", [("qt", "com.apple.quicktime.comment"); ("qt", "©cmt"); ("xmp", "qt:Comment")]);
   ("Composer", [("qt", "com.apple.quicktime.composer"); ("qt", "©wrt"); ("xmp", "qt:Composer")]);
   ("ContentIdentifier", [("qt", "com.apple.quicktime.content.identifier"); ("qt", "cnID"); ("xmp", "qt:ContentIdentifier")]);
   ("Copyright", [("qt", "com.apple.quicktime.copyright"); ("qt", "cprt"); ("xmp", "qt:Copyright")]);
   ("CreationDate", [("qt", "com.apple.quicktime.creationdate"); ("qt", "date"); ("xmp", "qt:CreationDate")]);
   ("Credits", [("qt", "com.apple.quicktime.credits"); ("qt", "©src"); ("xmp", "qt:Credits")]);
   ("Description", [("qt", "com.apple.quicktime.description"); ("qt", "©des"); ("xmp", "qt:Description")]);
   ("DirectionFacing", [("qt", "com.apple.quicktime.direction.facing"); ("qt", "-"); ("xmp", "qt:DirectionFacing")]);
   ("DirectionMotion", [("qt", "com.apple.quicktime.direction.motion"); ("qt", "-"); ("xmp", "qt:DirectionMotion")]);
   ("Director", [("qt", "com.apple.quicktime.director"); ("qt", "©dir"); ("xmp", "qt:Director")]);
   ("DisplayName", [("qt", "com.apple.quicktime.displayname"); ("qt", "name"); ("xmp", "qt:DisplayName")]);
   ("EncodedBy", [("qt", "com.apple.quicktime.encodedby"); ("qt", "©enc"); ("xmp", "qt:EncodedBy")]);
   ("Genre", [("qt", "com.apple.quicktime.genre"); ("qt", "©gen"); ("xmp", "qt:Genre")]);
   ("Information", [("qt", "com.apple.quicktime.information"); ("qt", "©inf"); ("xmp", "qt:Information")]);
   ("Keywords", [("qt", "com.apple.quicktime.keywords"); ("qt", "©key"); ("xmp", "qt:Keywords")]);
   ("LocationBody", [("qt", "com.apple.quicktime.location.body"); ("qt", "-"); ("xmp", "-")]);
   ("LocationDate", [("qt", "com.apple.quicktime.location.date"); ("qt", "-"); ("xmp", "-")]);
   ("LocationISO6709", [("qt", "com.apple.quicktime.location.iso6709"); ("qt", "©xyz"); ("xmp", "-")]);
   ("LocationName", [("qt", "com.apple.quicktime.location.name"); ("qt", "-"); ("xmp", "-")]);
   ("LocationNote", [("qt", "com.apple.quicktime.location.note"); ("qt", "-"); ("xmp", "-")]);
   ("LocationRole", [("qt", "com.apple.quicktime.location.role"); ("qt", "-"); ("xmp", "-")]);
   ("Make", [("qt", "com.apple.quicktime.make"); ("qt", "©mak"); ("xmp", "qt:Make")]);
   ("Model", [("qt", "com.apple.quicktime.model"); ("qt", "©mod"); ("xmp", "qt:Model")]);
   ("OriginalArtist", [("qt", "com.apple.quicktime.originalartist"); ("qt", "©ope"); ("xmp", "qt:OriginalArtist")]);
   ("Performer", [("qt", "com.apple.quicktime.performer"); ("qt", "©prf"); ("xmp", "qt:Performer")]);
   ("PhonogramRights", [("qt", "com.apple.quicktime.phonogramrights"); ("qt", "©phg"); ("xmp", "qt:PhonogramRights")]);
   ("Producer", [("qt", "com.apple.quicktime.producer"); ("qt", "©prd"); ("xmp", "qt:Producer")]);
   ("Publisher", [("qt", "com.apple.quicktime.publisher"); ("qt", "©pub"); ("xmp", "qt:Publisher")]);
   ("USRating", [("qt", "com.apple.quicktime.rating.user"); ("qt", "rtng"); ("xmp", "qt:USRating")]);
   ("Software", [("qt", "com.apple.quicktime.software"); ("qt", "©swr"); ("xmp", "qt:Software")]);
   ("Title", [("qt", "com.apple.quicktime.title"); ("qt", "©nam"); ("xmp", "qt:Title")]);
   ("Year", [("qt", "com.apple.quicktime.year"); ("qt", "yrrc"); ("xmp", "qt:Year")]);
   ("Version", [("qt", "com.apple.quicktime.version"); ("qt", "VERS"); ("xmp", "qt:Version")]);
   ("PreferredAffineTransform", [("qt", "com.apple.quicktime.preferred-affine-transform"); ("qt", "-"); ("xmp", "qt:PreferredAffineTransform")]);
   ("VideoOrientation", [("qt", "com.apple.quicktime.video-orientation"); ("qt", "-"); ("xmp", "qt:VideoOrientation")]);
   ("WindowLocation", [("qt", "com.apple.quicktime.windowlocation"); ("qt", "WLOC"); ("xmp", "qt:WindowLocation")]);
   ("CoreMotion", [("qt", "com.apple.quicktime.core-motion"); ("qt", "-"); ("xmp", "qt:CoreMotion")]);
   ("CameraDebugInfo", [("qt", "com.apple.quicktime.camera-debug-info"); ("qt", "-"); ("xmp", "qt:CameraDebugInfo")]);
   ("IsMontage", [("qt", "com.apple.quicktime.is-montage"); ("qt", "-"); ("xmp", "qt:IsMontage")]);
   ("PixelDensity", [("qt", "com.apple.quicktime.pixeldensity"); ("qt", "-"); ("xmp", "qt:PixelDensity")]);
   ("DetectedFace", [("qt", "com.apple.quicktime.detected-face"); ("qt", "-"); ("xmp", "qt:DetectedFace")]);
   ("HasEAN13", [("qt", "com.apple.quicktime.detected-machine-readable-code.EAN13"); ("qt", "-"); ("xmp", "qt:HasEAN13")]);
   ("HasEAN8", [("qt", "com.apple.quicktime.detected-machine-readable-code.EAN8"); ("qt", "-"); ("xmp", "qt:HasEAN8")]);
   ("HasUPCE", [("qt", "com.apple.quicktime.detected-machine-readable-code.UPCE"); ("qt", "-"); ("xmp", "qt:HasUPCE")]);
   ("HasCode39", [("qt", "com.apple.quicktime.detected-machine-readable-code.Code39"); ("qt", "-"); ("xmp", "qt:HasCode39")]);
   ("HasCode39Checksum", [("qt", "com.apple.quicktime.detected-machine-readable-code.Code39Checksum"); ("qt", "-"); ("xmp", "qt:HasCode39Checksum")]);
   ("HasCode93", [("qt", "com.apple.quicktime.detected-machine-readable-code.Code93"); ("qt", "-"); ("xmp", "qt:HasCode93")]);
   ("HasCode128", [("qt", "com.apple.quicktime.detected-machine-readable-code.Code128"); ("qt", "-"); ("xmp", "qt:HasCode128")]);
   ("HasI2of5", [("qt", "com.apple.quicktime.detected-machine-readable-code.I2of5"); ("qt", "-"); ("xmp", "qt:HasI2of5")]);
   ("HasITF14", [("qt", "com.apple.quicktime.detected-machine-readable-code.ITF14"); ("qt", "-"); ("xmp", "qt:HasITF14")]);
   ("HasDataMatrix", [("qt", "com.apple.quicktime.detected-machine-readable-code.DataMatrix"); ("qt", "-"); ("xmp", "qt:HasDataMatrix")]);
   ("HasQR", [("qt", "com.apple.quicktime.detected-machine-readable-code.QR"); ("qt", "-"); ("xmp", "qt:HasQR")]);
   ("HasAztec", [("qt", "com.apple.quicktime.detected-machine-readable-code.Aztec"); ("qt", "-"); ("xmp", "qt:HasAztec")]);
   ("HasPDF417", [("qt", "com.apple.quicktime.detected-machine-readable-code.PDF417"); ("qt", "-"); ("xmp", "qt:HasPDF417")]);
   ("Extension", [("qt", ",any"); ("qt", ",any"); ("xmp", "qt:extension")]);
   ("Location", [("qt", "-"); ("qt", "-"); ("xmp", "qt:Location")])].
(* models/qt/qt_player.go:22-34 *)
Definition st_qt_QtPlayer : struct_tags := [
   ("AudioBalance", [("qt", "com.apple.quicktime.player.movie.audio.balance"); ("xmp", "qt:AudioBalance")]);
   ("AudioBass", [("qt", "com.apple.quicktime.player.movie.audio.bass"); ("xmp", "qt:AudioBass")]);
   ("AudioGain", [("qt", "com.apple.quicktime.player.movie.audio.gain"); ("xmp", "qt:AudioGain")]);
   ("AudioMute", [("qt", "com.apple.quicktime.player.movie.audio.mute"); ("xmp", "qt:AudioMute")]);
   ("AudioPitchshift", [("qt", "com.apple.quicktime.player.movie.audio.pitchshift"); ("xmp", "qt:AudioPitchshift")]);
   ("AudioTreble", [("qt", "com.apple.quicktime.player.movie.audio.treble"); ("xmp", "qt:AudioTreble")]);
   ("VisualBrightness", [("qt", "com.apple.quicktime.player.movie.visual.brightness"); ("xmp", "qt:VisualBrightness")]);
   ("VisualColor", [("qt", "com.apple.quicktime.player.movie.visual.color"); ("xmp", "qt:VisualColor")]);
   ("VisualContrast", [("qt", "com.apple.quicktime.player.movie.visual.contrast"); ("xmp", "qt:VisualContrast")]);
   ("VisualTint", [("qt", "com.apple.quicktime.player.movie.visual.tint"); ("xmp", "qt:VisualTint")]);
   ("Version", [("qt", "com.apple.quicktime.player.version"); ("xmp", "qt:Version")])].
(* models/qt/qt_proapps.go:22-72 *)
Definition st_qt_QtProApps : struct_tags := [
   ("ClipID", [("qt", "com.apple.proapps.clipID"); ("xmp", "qt:ClipID")]);
   ("OriginalFormat", [("qt", "com.apple.proapps.originalFormat"); ("xmp", "qt:OriginalFormat")]);
   ("CustomColor", [("qt", "com.apple.proapps.customcolor"); ("xmp", "qt:CustomColor")]);
   ("CameraName", [("qt", "com.apple.proapps.cameraName"); ("xmp", "qt:CameraName")]);
   ("MIOCameraName", [("qt", "com.apple.proapps.mio.cameraName"); ("xmp", "qt:MIOCameraName")]);
   ("Scene", [("qt", "com.apple.proapps.scene"); ("xmp", "qt:Scene")]);
   ("Shot", [("qt", "com.apple.proapps.shot"); ("xmp", "qt:Shot")]);
   ("Angle", [("qt", "com.apple.proapps.angle"); ("xmp", "qt:Angle")]);
   ("LogNote", [("qt", "com.apple.proapps.logNote"); ("xmp", "qt:LogNote")]);
   ("LastUpdateDate", [("qt", "com.apple.proapps.lastupdatedate"); ("xmp", "qt:Lastupdatedate")]);
   ("IngestDateDescription", [("qt", "com.apple.proapps.ingestDate.description"); ("xmp", "qt:IngestDateDescription")]);
   ("StartTimeCodeFrameCount", [("qt", "com.apple.proapps.avchd.startTimeCodeFrameCount"); ("xmp", "qt:StartTimeCodeFrameCount")]);
   ("DropFrame", [("qt", "com.apple.proapps.avchd.dropFrame"); ("xmp", "qt:DropFrame")]);
   ("VideoFrameDuration", [("qt", "com.apple.proapps.avchd.videoFrameDuration"); ("xmp", "qt:VideoFrameDuration")]);
   ("Category", [("qt", "com.apple.proapps.share.category"); ("xmp", "qt:Category")]);
   ("ShareID", [("qt", "com.apple.proapps.share.id"); ("xmp", "qt:ShareID")]);
   ("EpisodeID", [("qt", "com.apple.proapps.share.episodeID"); ("xmp", "qt:EpisodeID")]);
   ("EpisodeNumber", [("qt", "com.apple.proapps.share.episodeNumber"); ("xmp", "qt:EpisodeNumber")]);
   ("MediaKind", [("qt", "com.apple.proapps.share.mediaKind"); ("xmp", "qt:MediaKind")]);
   ("Screenwriters", [("qt", "com.apple.proapps.share.screenWriter"); ("xmp", "qt:Screenwriters")]);
   ("SeasonNumber", [("qt", "com.apple.proapps.share.seasonNumber"); ("xmp", "qt:SeasonNumber")]);
   ("TVNetwork", [("qt", "com.apple.proapps.share.tvNetwork"); ("xmp", "qt:TVNetwork")]);
   ("Reel", [("qt", "com.apple.proapps.reel"); ("xmp", "qt:Reel")]);
   ("CameraID", [("qt", "com.apple.proapps.cameraID"); ("xmp", "qt:CameraID")]);
   ("CameraManufacturer", [("qt", "com.apple.proapps.manufacturer"); ("xmp", "qt:CameraManufacturer")]);
   ("CameraModel", [("qt", "com.apple.proapps.modelname"); ("xmp", "qt:CameraModel")]);
   ("CameraSerialNumber", [("qt", "com.apple.proapps.serialno"); ("xmp", "qt:CameraSerialNumber")]);
   ("ClipFileName", [("qt", "com.apple.proapps.clipFileName"); ("xmp", "qt:ClipFileName")]);
   ("AscCDL", [("qt", "com.apple.proapps.color.asc-cdl"); ("xmp", "qt:AscCDL")]);
   ("IsGood", [("qt", "com.apple.proapps.isGood"); ("xmp", "qt:IsGood")]);
   ("DataSize", [("qt", "com.apple.proapps.dataSize"); ("xmp", "qt:DataSize")]);
   ("DisplayFormat", [("qt", "com.apple.proapps.displayFormat"); ("xmp", "qt:DisplayFormat")]);
   ("ShootingRate", [("qt", "com.apple.proapps.shootingRate"); ("xmp", "qt:ShootingRate")]);
   ("VideoBitrate", [("qt", "com.apple.proapps.videoBitrate"); ("xmp", "qt:VideoBitrate")]);
   ("Pulldown", [("qt", "com.apple.proapps.pulldown"); ("xmp", "qt:Pulldown")]);
   ("MediaRate", [("qt", "com.apple.proapps.mediaRate"); ("xmp", "qt:MediaRate")]);
   ("TimecodeFormat", [("qt", "com.apple.proapps.timecodeFormat"); ("xmp", "qt:TimecodeFormat")]);
   ("NumberOfAudioChannels", [("qt", "com.apple.proapps.numberOfAudioChannels"); ("xmp", "qt:NumberOfAudioChannels")]);
   ("SampleRate", [("qt", "com.apple.proapps.sampleRate"); ("xmp", "qt:SampleRate")]);
   ("BitsPerSample", [("qt", "com.apple.proapps.bitsPerSample"); ("xmp", "qt:BitsPerSample")]);
   ("StudioAlphaHandling", [("qt", "com.apple.proapps.studio.alphaHandling"); ("xmp", "qt:StudioAlphaHandling")]);
   ("StudioCameraAngle", [("qt", "com.apple.proapps.studio.angle"); ("xmp", "qt:StudioCameraAngle")]);
   ("StudioAnamorphicOverride", [("qt", "com.apple.proapps.studio.metadataAnamorphicType"); ("xmp", "qt:StudioAnamorphicOverride")]);
   ("StudioDeinterlace", [("qt", "com.apple.proapps.studio.metadataDeinterlaceType"); ("xmp", "qt:StudioDeinterlace")]);
   ("StudioFieldDominanceOverride", [("qt", "com.apple.proapps.studio.metadataFieldDominanceOverride"); ("xmp", "qt:StudioFieldDominanceOverride")]);
   ("StudioLocation", [("qt", "com.apple.proapps.studio.metadataLocation"); ("xmp", "qt:StudioLocation")]);
   ("StudioReel", [("qt", "com.apple.proapps.studio.reel"); ("xmp", "qt:StudioReel")]);
   ("StudioScene", [("qt", "com.apple.proapps.studio.scene"); ("xmp", "qt:StudioScene")]);
   ("StudioShot", [("qt", "com.apple.proapps.studio.shot"); ("xmp", "qt:StudioTake")])].
(* models/riff/model.go:54-145 *)
Definition st_riff_RiffInfo : struct_tags := [
   ("ArchiveLocation", [("riffinfo", "IARL"); ("xmp", "riffinfo:archivalLocation")]);
   ("Artist", [("riffinfo", "IART"); ("xmp", "xmpDM:artist")]);
   ("CommissionedBy", [("riffinfo", "ICMS"); ("xmp", "riffinfo:commissioned")]);
   ("Comments", [("riffinfo", "ICMT"); ("xmp", "xmpDM:logComment")]);
   ("Copyright", [("riffinfo", "ICOP"); ("xmp", "dc:rights")]);
   ("CreateDate", [("riffinfo", "ICRD"); ("xmp", "xmp:CreateDate")]);
   ("Engineeer", [("riffinfo", "IENG"); ("xmp", "xmpDM:engineer")]);
   ("Genre", [("riffinfo", "IGNR"); ("xmp", "xmpDM:genre")]);
   ("Keywords", [("riffinfo", "IKEY"); ("xmp", "dc:subject")]);
   ("SourceMedium", [("riffinfo", "IMED"); ("xmp", "dc:source")]);
   ("Title", [("riffinfo", "INAM"); ("xmp", "riffinfo:name")]);
   ("Product", [("riffinfo", "IPRD"); ("xmp", "riffinfo:product")]);
   ("Description", [("riffinfo", "ISBJ"); ("xmp", "dc:description")]);
   ("Software", [("riffinfo", "ISFT"); ("xmp", "xmp:CreatorTool")]);
   ("SourceCredit", [("riffinfo", "ISRC"); ("xmp", "riffinfo:source")]);
   ("SourceType", [("riffinfo", "ISRF"); ("xmp", "dc:type")]);
   ("Technician", [("riffinfo", "ITCH"); ("xmp", "riffinfo:technician")]);
   ("Rated", [("riffinfo", "AGES"); ("xmp", "riffinfo:Rated")]);
   ("Comment", [("riffinfo", "CMNT"); ("xmp", "riffinfo:Comment")]);
   ("EncodedBy", [("riffinfo", "CODE"); ("xmp", "riffinfo:EncodedBy")]);
   ("Comments2", [("riffinfo", "COMM"); ("xmp", "riffinfo:Comments")]);
   ("Directory", [("riffinfo", "DIRC"); ("xmp", "riffinfo:Directory")]);
   ("SoundSchemeTitle", [("riffinfo", "DISP"); ("xmp", "riffinfo:SoundSchemeTitle")]);
   ("DateTimeOriginal", [("riffinfo", "DTIM"); ("xmp", "riffinfo:DateTimeOriginal")]);
   ("Genre2", [("riffinfo", "GENR"); ("xmp", "riffinfo:Genre")]);
   ("ArchivalLocation", [("riffinfo", "IARL"); ("xmp", "riffinfo:ArchivalLocation")]);
   ("FirstLanguage", [("riffinfo", "IAS1"); ("xmp", "riffinfo:FirstLanguage")]);
   ("SecondLanguage", [("riffinfo", "IAS2"); ("xmp", "riffinfo:SecondLanguage")]);
   ("ThirdLanguage", [("riffinfo", "IAS3"); ("xmp", "riffinfo:ThirdLanguage")]);
   ("FourthLanguage", [("riffinfo", "IAS4"); ("xmp", "riffinfo:FourthLanguage")]);
   ("FifthLanguage", [("riffinfo", "IAS5"); ("xmp", "riffinfo:FifthLanguage")]);
   ("SixthLanguage", [("riffinfo", "IAS6"); ("xmp", "riffinfo:SixthLanguage")]);
   ("SeventhLanguage", [("riffinfo", "IAS7"); ("xmp", "riffinfo:SeventhLanguage")]);
   ("EighthLanguage", [("riffinfo", "IAS8"); ("xmp", "riffinfo:EighthLanguage")]);
   ("NinthLanguage", [("riffinfo", "IAS9"); ("xmp", "riffinfo:NinthLanguage")]);
   ("BaseURL", [("riffinfo", "IBSU"); ("xmp", "riffinfo:BaseURL")]);
   ("DefaultAudioStream", [("riffinfo", "ICAS"); ("xmp", "riffinfo:DefaultAudioStream")]);
   ("CostumeDesigner", [("riffinfo", "ICDS"); ("xmp", "riffinfo:CostumeDesigner")]);
   ("Commissioned", [("riffinfo", "ICMS"); ("xmp", "riffinfo:Commissioned")]);
   ("Cinematographer", [("riffinfo", "ICNM"); ("xmp", "riffinfo:Cinematographer")]);
   ("Country", [("riffinfo", "ICNT"); ("xmp", "riffinfo:Country")]);
   ("Cropped", [("riffinfo", "ICRP"); ("xmp", "riffinfo:Cropped")]);
   ("Dimensions", [("riffinfo", "IDIM"); ("xmp", "riffinfo:Dimensions")]);
   ("DateTimeOriginal2", [("riffinfo", "IDIT"); ("xmp", "-")]);
   ("DotsPerInch", [("riffinfo", "IDPI"); ("xmp", "riffinfo:DotsPerInch")]);
   ("DistributedBy", [("riffinfo", "IDST"); ("xmp", "riffinfo:DistributedBy")]);
   ("EditedBy", [("riffinfo", "IEDT"); ("xmp", "riffinfo:EditedBy")]);
   ("EncodedBy2", [("riffinfo", "IENC"); ("xmp", "-")]);
   ("Lightness", [("riffinfo", "ILGT"); ("xmp", "riffinfo:Lightness")]);
   ("LogoURL", [("riffinfo", "ILGU"); ("xmp", "riffinfo:LogoURL")]);
   ("LogoIconURL", [("riffinfo", "ILIU"); ("xmp", "riffinfo:LogoIconURL")]);
   ("Language", [("riffinfo", "ILNG"); ("xmp", "riffinfo:Language")]);
   ("MoreInfoBannerImage", [("riffinfo", "IMBI"); ("xmp", "riffinfo:MoreInfoBannerImage")]);
   ("MoreInfoBannerURL", [("riffinfo", "IMBU"); ("xmp", "riffinfo:MoreInfoBannerURL")]);
   ("MoreInfoText", [("riffinfo", "IMIT"); ("xmp", "riffinfo:MoreInfoText")]);
   ("MoreInfoURL", [("riffinfo", "IMIU"); ("xmp", "riffinfo:MoreInfoURL")]);
   ("MusicBy", [("riffinfo", "IMUS"); ("xmp", "riffinfo:MusicBy")]);
   ("ProductionDesigner", [("riffinfo", "IPDS"); ("xmp", "riffinfo:ProductionDesigner")]);
   ("NumColors", [("riffinfo", "IPLT"); ("xmp", "riffinfo:NumColors")]);
   ("ProducedBy", [("riffinfo", "IPRO"); ("xmp", "riffinfo:ProducedBy")]);
   ("RippedBy", [("riffinfo", "IRIP"); ("xmp", "riffinfo:RippedBy")]);
   ("Rating", [("riffinfo", "IRTD"); ("xmp", "riffinfo:Rating")]);
   ("SecondaryGenre", [("riffinfo", "ISGN"); ("xmp", "riffinfo:SecondaryGenre")]);
   ("Sharpness", [("riffinfo", "ISHP"); ("xmp", "riffinfo:Sharpness")]);
   ("TimeCode", [("riffinfo", "ISMP"); ("xmp", "riffinfo:TimeCode")]);
   ("ProductionStudio", [("riffinfo", "ISTD"); ("xmp", "riffinfo:ProductionStudio")]);
   ("Starring", [("riffinfo", "ISTR"); ("xmp", "riffinfo:Starring")]);
   ("WatermarkURL", [("riffinfo", "IWMU"); ("xmp", "riffinfo:WatermarkURL")]);
   ("WrittenBy", [("riffinfo", "IWRI"); ("xmp", "riffinfo:WrittenBy")]);
   ("Language2", [("riffinfo", "LANG"); ("xmp", "riffinfo:Language2")]);
   ("Location", [("riffinfo", "LOCA"); ("xmp", "riffinfo:Location")]);
   ("Part", [("riffinfo", "PRT1"); ("xmp", "riffinfo:Part")]);
   ("NumberOfParts", [("riffinfo", "PRT2"); ("xmp", "riffinfo:NumberOfParts")]);
   ("Rate", [("riffinfo", "RATE"); ("xmp", "riffinfo:Rate")]);
   ("Starring2", [("riffinfo", "STAR"); ("xmp", "-")]);
   ("Statistics", [("riffinfo", "STAT"); ("xmp", "riffinfo:Statistics")]);
   ("TapeName", [("riffinfo", "TAPE"); ("xmp", "riffinfo:TapeName")]);
   ("EndTimecode", [("riffinfo", "TCDO"); ("xmp", "riffinfo:EndTimecode")]);
   ("StartTimecode", [("riffinfo", "TCOD"); ("xmp", "riffinfo:StartTimecode")]);
   ("Title2", [("riffinfo", "TITL"); ("xmp", "riffinfo:Title")]);
   ("Length", [("riffinfo", "TLEN"); ("xmp", "riffinfo:Length")]);
   ("Organization", [("riffinfo", "TORG"); ("xmp", "riffinfo:Organization")]);
   ("TrackNumber", [("riffinfo", "TRCK"); ("xmp", "riffinfo:TrackNumber")]);
   ("URL", [("riffinfo", "TURL"); ("xmp", "riffinfo:URL")]);
   ("Version", [("riffinfo", "TVER"); ("xmp", "riffinfo:Version")]);
   ("VegasVersionMajor", [("riffinfo", "VMAJ"); ("xmp", "riffinfo:VegasVersionMajor")]);
   ("VegasVersionMinor", [("riffinfo", "VMIN"); ("xmp", "riffinfo:VegasVersionMinor")]);
   ("Year", [("riffinfo", "YEAR"); ("xmp", "riffinfo:Year")])].
(* models/tiff/model.go:56-92 *)
Definition st_tiff_TiffInfo : struct_tags := [
   ("Artist", [("xmp", "dc:creator")]);
   ("BitsPerSample", [("xmp", "tiff:BitsPerSample")]);
   ("Compression", [("xmp", "tiff:Compression")]);
   ("DateTime", [("xmp", "xmp:ModifyDate")]);
   ("ImageLength", [("xmp", "tiff:ImageLength")]);
   ("ImageWidth", [("xmp", "tiff:ImageWidth")]);
   ("Make", [("xmp", "tiff:Make")]);
   ("Model", [("xmp", "tiff:Model")]);
   ("Software", [("xmp", "xmp:CreatorTool")]);
   ("ImageDescription", [("xmp", "dc:description")]);
   ("Copyright", [("xmp", "dc:rights")]);
   ("Orientation", [("xmp", "tiff:Orientation")]);
   ("PhotometricInterpretation", [("xmp", "tiff:PhotometricInterpretation")]);
   ("PlanarConfiguration", [("xmp", "tiff:PlanarConfiguration")]);
   ("PrimaryChromaticities", [("xmp", "tiff:PrimaryChromaticities")]);
   ("ReferenceBlackWhite", [("xmp", "tiff:ReferenceBlackWhite")]);
   ("ResolutionUnit", [("xmp", "tiff:ResolutionUnit")]);
   ("SamplesPerPixel", [("xmp", "tiff:SamplesPerPixel")]);
   ("TransferFunction", [("xmp", "tiff:TransferFunction")]);
   ("WhitePoint", [("xmp", "tiff:WhitePoint")]);
   ("XResolution", [("xmp", "tiff:XResolution")]);
   ("YCbCrCoefficients", [("xmp", "tiff:YCbCrCoefficients")]);
   ("YCbCrPositioning", [("xmp", "tiff:YCbCrPositioning")]);
   ("YCbCrSubSampling", [("xmp", "tiff:YCbCrSubSampling")]);
   ("YResolution", [("xmp", "tiff:YResolution")]);
   ("NativeDigest", [("xmp", "tiff:NativeDigest,omit")]);
   ("X_Artist", [("xmp", "tiff:Artist,omit")]);
   ("X_DateTime", [("xmp", "tiff:DateTime,omit")]);
   ("X_Software", [("xmp", "tiff:Software,omit")]);
   ("X_ImageDescription", [("xmp", "tiff:ImageDescription,omit")]);
   ("X_Copyright", [("xmp", "tiff:Copyright,omit")])].
(* models/xmp_base/model.go:59-72 *)
Definition st_xmpbase_XmpBase : struct_tags := [
   ("Advisory", [("xmp", "xmp:Advisory")]);
   ("BaseURL", [("xmp", "xmp:BaseURL")]);
   ("CreateDate", [("xmp", "xmp:CreateDate")]);
   ("CreatorTool", [("xmp", "xmp:CreatorTool")]);
   ("Identifier", [("xmp", "xmp:Identifier")]);
   ("Label", [("xmp", "xmp:Label")]);
   ("MetadataDate", [("xmp", "xmp:MetadataDate")]);
   ("ModifyDate", [("xmp", "xmp:ModifyDate")]);
   ("Nickname", [("xmp", "xmp:Nickname")]);
   ("Rating", [("xmp", "xmp:Rating")]);
   ("Thumbnails", [("xmp", "xmp:Thumbnails")]);
   ("Extensions", [("xmp", "xmp:extension")])].
(* models/xmp_bj/model.go:53-55 *)
Definition st_xmpbj_JobTicket : struct_tags := [
   ("JobRef", [("xmp", "xmpBJ:JobRef")])].
(* models/xmp_dm/model.go:52-128 *)
Definition st_xmpdm_XmpDM : struct_tags := [
   ("AbsPeakAudioFilePath", [("xmp", "xmpDM:absPeakAudioFilePath")]);
   ("Album", [("xmp", "xmpDM:album")]);
   ("AltTapeName", [("xmp", "xmpDM:altTapeName")]);
   ("AltTimecode", [("xmp", "xmpDM:altTimecode")]);
   ("Artist", [("xmp", "xmpDM:artist")]);
   ("AudioChannelType", [("xmp", "xmpDM:audioChannelType")]);
   ("AudioCompressor", [("xmp", "xmpDM:audioCompressor")]);
   ("AudioSampleRate", [("xmp", "xmpDM:audioSampleRate")]);
   ("AudioSampleType", [("xmp", "xmpDM:audioSampleType")]);
   ("BeatSpliceParams", [("xmp", "xmpDM:beatSpliceParams")]);
   ("CameraAngle", [("xmp", "xmpDM:cameraAngle")]);
   ("CameraLabel", [("xmp", "xmpDM:cameraLabel")]);
   ("CameraModel", [("xmp", "xmpDM:cameraModel")]);
   ("CameraMove", [("xmp", "xmpDM:cameraMove")]);
   ("Client", [("xmp", "xmpDM:client")]);
   ("Comment", [("xmp", "xmpDM:comment")]);
   ("Composer", [("xmp", "xmpDM:composer")]);
   ("ContributedMedia", [("xmp", "xmpDM:contributedMedia")]);
   ("Director", [("xmp", "xmpDM:director")]);
   ("DirectorPhotography", [("xmp", "xmpDM:directorPhotography")]);
   ("Duration", [("xmp", "xmpDM:duration")]);
   ("Engineer", [("xmp", "xmpDM:engineer")]);
   ("FileDataRate", [("xmp", "xmpDM:fileDataRate")]);
   ("Genre", [("xmp", "xmpDM:genre")]);
   ("Good", [("xmp", "xmpDM:good")]);
   ("Instrument", [("xmp", "xmpDM:instrument")]);
   ("IntroTime", [("xmp", "xmpDM:introTime")]);
   ("Key", [("xmp", "xmpDM:key")]);
   ("LogComment", [("xmp", "xmpDM:logComment")]);
   ("Loop", [("xmp", "xmpDM:loop")]);
   ("NumberOfBeats", [("xmp", "xmpDM:numberOfBeats")]);
   ("Markers", [("xmp", "xmpDM:markers")]);
   ("OutCue", [("xmp", "xmpDM:outCue")]);
   ("ProjectName", [("xmp", "xmpDM:projectName")]);
   ("ProjectRef", [("xmp", "xmpDM:projectRef")]);
   ("PullDown", [("xmp", "xmpDM:pullDown")]);
   ("RelativePeakAudioFilePath", [("xmp", "xmpDM:relativePeakAudioFilePath")]);
   ("RelativeTimestamp", [("xmp", "xmpDM:relativeTimestamp")]);
   ("ReleaseDate", [("xmp", "xmpDM:releaseDate")]);
   ("ResampleParams", [("xmp", "xmpDM:resampleParams")]);
   ("ScaleType", [("xmp", "xmpDM:scaleType")]);
   ("Scene", [("xmp", "xmpDM:scene")]);
   ("ShotDate", [("xmp", "xmpDM:shotDate")]);
   ("ShotDay", [("xmp", "xmpDM:shotDay")]);
   ("ShotLocation", [("xmp", "xmpDM:shotLocation")]);
   ("ShotName", [("xmp", "xmpDM:shotName")]);
   ("ShotNumber", [("xmp", "xmpDM:shotNumber")]);
   ("ShotSize", [("xmp", "xmpDM:shotSize")]);
   ("SpeakerPlacement", [("xmp", "xmpDM:speakerPlacement")]);
   ("StartTimecode", [("xmp", "xmpDM:startTimecode")]);
   ("StretchMode", [("xmp", "xmpDM:stretchMode")]);
   ("TakeNumber", [("xmp", "xmpDM:takeNumber")]);
   ("TapeName", [("xmp", "xmpDM:tapeName")]);
   ("Tempo", [("xmp", "xmpDM:tempo")]);
   ("TimeScaleParams", [("xmp", "xmpDM:timeScaleParams")]);
   ("TimeSignature", [("xmp", "xmpDM:timeSignature")]);
   ("TrackNumber", [("xmp", "xmpDM:trackNumber")]);
   ("Tracks", [("xmp", "xmpDM:Tracks")]);
   ("VideoAlphaMode", [("xmp", "xmpDM:videoAlphaMode")]);
   ("VideoAlphaPremultipleColor", [("xmp", "xmpDM:videoAlphaPremultipleColor")]);
   ("VideoAlphaUnityIsTransparent", [("xmp", "xmpDM:videoAlphaUnityIsTransparent")]);
   ("VideoColorSpace", [("xmp", "xmpDM:videoColorSpace")]);
   ("VideoCompressor", [("xmp", "xmpDM:videoCompressor")]);
   ("VideoFieldOrder", [("xmp", "xmpDM:videoFieldOrder")]);
   ("VideoFrameRate", [("xmp", "xmpDM:videoFrameRate")]);
   ("VideoFrameSize", [("xmp", "xmpDM:videoFrameSize")]);
   ("VideoPixelDepth", [("xmp", "xmpDM:videoPixelDepth")]);
   ("VideoPixelAspectRatio", [("xmp", "xmpDM:videoPixelAspectRatio")]);
   ("PartOfCompilation", [("xmp", "xmpDM:partOfCompilation")]);
   ("Lyrics", [("xmp", "xmpDM:lyrics")]);
   ("DiscNumber", [("xmp", "xmpDM:discNumber")]);
   ("StartTimeScale", [("xmp", "xmpDM:startTimeScale")]);
   ("StartTimeSampleSize", [("xmp", "xmpDM:startTimeSampleSize")])].
(* models/xmp_mm/model.go:58-75 *)
Definition st_xmpmm_XmpMM : struct_tags := [
   ("DerivedFrom", [("xmp", "xmpMM:DerivedFrom")]);
   ("DocumentID", [("xmp", "xmpMM:DocumentID")]);
   ("History", [("xmp", "xmpMM:History")]);
   ("Ingredients", [("xmp", "xmpMM:Ingredients")]);
   ("InstanceID", [("xmp", "xmpMM:InstanceID")]);
   ("ManagedFrom", [("xmp", "xmpMM:ManagedFrom")]);
   ("Manager", [("xmp", "xmpMM:Manager")]);
   ("ManageTo", [("xmp", "xmpMM:ManageTo")]);
   ("ManageUI", [("xmp", "xmpMM:ManageUI")]);
   ("ManagerVariant", [("xmp", "xmpMM:ManagerVariant")]);
   ("OriginalDocumentID", [("xmp", "xmpMM:OriginalDocumentID")]);
   ("Pantry", [("xmp", "xmpMM:Pantry,omitempty")]);
   ("RenditionClass", [("xmp", "xmpMM:RenditionClass")]);
   ("RenditionParams", [("xmp", "xmpMM:RenditionParams")]);
   ("VersionID", [("xmp", "xmpMM:VersionID")]);
   ("Versions", [("xmp", "xmpMM:Versions")])].
(* models/xmp_rights/model.go:51-57 *)
Definition st_xmprights_XmpRights : struct_tags := [
   ("Certificate", [("xmp", "xmpRights:Certificate")]);
   ("Marked", [("xmp", "xmpRights:Marked")]);
   ("Owner", [("xmp", "xmpRights:Owner")]);
   ("UsageTerms", [("xmp", "xmpRights:UsageTerms")]);
   ("WebStatement", [("xmp", "xmpRights:WebStatement")])].
(* models/xmp_tpg/model.go:56-65 *)
Definition st_xmptpg_PagedText : struct_tags := [
   ("Colorants", [("xmp", "xmpTPg:Colorants")]);
   ("Fonts", [("xmp", "xmpTPg:Fonts")]);
   ("MaxPageSize", [("xmp", "xmpTPg:MaxPageSize")]);
   ("NPages", [("xmp", "xmpTPg:NPages,attr")]);
   ("PlateNames", [("xmp", "xmpTPg:PlateNames")]);
   ("HasVisibleTransparency", [("xmp", "xmpTPg:HasVisibleTransparency")]);
   ("HasVisibleOverprint", [("xmp", "xmpTPg:HasVisibleOverprint")]);
   ("SwatchGroups", [("xmp", "xmpTPg:SwatchGroups")])].
