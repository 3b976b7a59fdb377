-Q theories Verif
theories/Num.v
theories/Arr.v
theories/Core.v
theories/Track.v
theories/Cells.v
theories/Sums.v
theories/SpecTransport.v
theories/HAdv.v
theories/AdvProps.v
theories/Ieee.v
theories/Single.v
theories/RoundMass.v
theories/StepR.v
theories/StepProps.v
theories/RoundStep.v
theories/RoundBalance.v
theories/RoundFlux.v
theories/StepBounds.v
theories/Stabilize.v
theories/Fz.v
theories/StepEq.v
theories/StepExample.v
theories/Finite.v
theories/Progress.v
theories/Run.v
theories/RunSched.v
theories/RunBody.v
theories/RunGen.v
theories/RunProps.v
theories/RoundRun.v
theories/RoundFinite.v
theories/RunInv.v
theories/Restart.v
theories/Closure.v
theories/ExampleRun.v
theories/LogLines.v
theories/RunEq.v
theories/Warnings.v
theories/Period.v
theories/Calendar.v
theories/Names.v
theories/DebugFiles.v
theories/LogFile.v
theories/Load.v
theories/RestartF.v
theories/Cache.v
theories/Prep.v
theories/Append.v
theories/PrepTrack.v
theories/Pieces.v
theories/Sphere.v
theories/Region.v
theories/Surface.v
theories/Humidity.v
theories/Era5Table.v
theories/ModelLevels.v
theories/Interp.v
theories/Levels.v
theories/LayersR.v
theories/Extend.v
theories/Thickness.v
theories/Integral.v
theories/ColumnProps.v
theories/ProfileExample.v
theories/CmipLevels.v
theories/Lon.v
theories/PoleBounds.v
theories/EraPrep.v
theories/EraTrack.v
theories/EraPhys.v
theories/Polygon.v
theories/Shapes.v
theories/Cmip.v
theories/CmipFiles.v
theories/Validate.v
theories/Sources.v
theories/CmipTrack.v
theories/EraFiles.v
theories/Align.v
theories/EraDownload.v
theories/LatOrder.v
theories/DateText.v
theories/Provenance.v
theories/Config.v
theories/CalendarCheck.v
theories/Strings.v
theories/JsonText.v
theories/ConfigFile.v
theories/Download.v
theories/RegionMask.v
theories/Visual.v
theories/Checks.v
theories/Cli.v
theories/VisualInput.v
