-Q theories Verif
theories/Base.v
theories/BaseFacts.v
theories/VersionModel.v
theories/OrderFacts.v
theories/VersionSpec.v
theories/VersionProofs.v
theories/VersionPep440.v
theories/ParserModel.v
theories/VersionParserModel.v
theories/ParserFacts.v
theories/VersionParserProofs.v
theories/UrlModel.v
theories/VersionParse.v
theories/VersionParseProofs.v
theories/VersionProps.v
theories/SpecifierModel.v
theories/SpecifierSpec.v
theories/SpecRange.v
theories/SpecifierProofs.v
theories/SpecUnion.v
theories/SpecInverse.v
theories/SpecParse.v
theories/SpecParseSpec.v
theories/SpecParseProofs.v
theories/SpecifierProps.v
theories/CollectionModel.v
theories/LockModel.v
theories/CollectionProofs.v
theories/CollectionProps.v
theories/LockSpec.v
theories/LockProofs.v
theories/LockProps.v
theories/FsModel.v
theories/FsFacts.v
theories/CopyTxModel.v
theories/CopyTxSpec.v
theories/CopyTxProofs.v
theories/FilesModel.v
theories/FilesProofs.v
theories/FilesProps.v
theories/PromiseModel.v
theories/PromiseProofs.v
theories/PromiseProps.v
theories/HttpModel.v
theories/HttpProofs.v
theories/HttpProps.v
theories/NamesModel.v
theories/NamesProofs.v
theories/ArtifactModel.v
theories/ArtifactProofs.v
theories/PackageProps.v
theories/InstallModel.v
theories/RemovalProofs.v
theories/InstallProofs.v
theories/InstallProps.v
theories/PubgrubModel.v
theories/PubgrubSolution.v
theories/PubgrubLaws.v
theories/PubgrubReal.v
theories/PubgrubSound.v
theories/PubgrubIdeal.v
theories/PubgrubProps.v
theories/PubgrubFuel.v
theories/PubgrubEndlessProps.v
theories/PthModel.v
theories/PthProofs.v
theories/PthProps.v
theories/CachedModel.v
theories/CachedProofs.v
theories/CachedProps.v
theories/ActivateModel.v
theories/ActivateProofs.v
theories/ActivateProps.v
theories/TagsModel.v
theories/TagsSpec.v
theories/TagsProofs.v
theories/TagsProps.v
theories/RepoModel.v
theories/RepoProofs.v
theories/RepoProps.v
theories/BuildModel.v
theories/BuildProofs.v
theories/BuildProps.v
theories/MarkerModel.v
theories/MarkerSpec.v
theories/MarkerProofs.v
theories/MarkerAtoms.v
theories/MarkerProps.v
theories/DependencyModel.v
theories/DependencyProofs.v
theories/DependencyProps.v
theories/SharedModel.v
theories/SharedProofs.v
theories/SharedProps.v
theories/ConfigModel.v
theories/ConfigProofs.v
theories/ConfigProps.v
theories/ProjectModel.v
theories/ProjectProofs.v
theories/ProjectProps.v
theories/TomlModel.v
theories/TomlProofs.v
theories/TomlDocProofs.v
theories/TomlEndProofs.v
theories/TomlProps.v
theories/PoolModel.v
theories/PoolProofs.v
theories/PoolQuietProofs.v
theories/PoolProps.v
theories/TemplateModel.v
theories/TemplateProofs.v
theories/TemplateOutProofs.v
theories/TemplateProps.v
theories/SpecSameStart.v
theories/VersionSpellProofs.v
theories/SpecExactProofs.v
theories/CliModel.v
theories/CliSpec.v
theories/CliProofs.v
theories/CliArgsProofs.v
theories/CliFillProofs.v
theories/CliProps.v
theories/ResolveModel.v
theories/ResolveProofs.v
theories/ResolveProps.v
theories/IndexModel.v
theories/IndexProofs.v
theories/IndexProps.v
theories/RecordFileModel.v
theories/RecordFileProofs.v
theories/RecordFileProps.v
theories/MetadataModel.v
theories/MetadataProofs.v
theories/MetadataProps.v
theories/CliMoreProps.v
theories/GitModel.v
theories/GitProofs.v
theories/GitProps.v
theories/BuilderModel.v
theories/BuilderProofs.v
theories/BuilderProps.v
theories/LocalModel.v
theories/LocalProofs.v
theories/LocalProps.v
theories/PlanModel.v
theories/PlanProofs.v
theories/PlanProps.v
theories/WheelModel.v
theories/WheelSpec.v
theories/WheelProofs.v
theories/WheelInstallProofs.v
theories/WheelProps.v
theories/CondaModel.v
theories/CondaProofs.v
theories/CondaProps.v
theories/ControllerModel.v
theories/ControllerProofs.v
theories/ControllerProps.v
theories/ContextModel.v
theories/ContextProps.v
theories/MethodModel.v
theories/MethodProofs.v
theories/MethodProps.v
theories/HtmlModel.v
theories/HtmlProofs.v
theories/HtmlProps.v
theories/TorchModel.v
theories/TorchProofs.v
theories/TorchProps.v
theories/ContainerModel.v
theories/ContainerProofs.v
theories/ContainerProps.v
theories/MonitorModel.v
theories/MonitorProofs.v
theories/MonitorProps.v
theories/PythonsModel.v
theories/PythonsProofs.v
theories/PythonsProps.v
theories/CondaInstallModel.v
theories/CondaInstallSpec.v
theories/CondaInstallProofs.v
theories/CondaInstallProps.v
theories/CondaRollbackProofs.v
theories/IniModel.v
theories/IniProofs.v
theories/IniEntryProofs.v
theories/IniProps.v
theories/ArchiveModel.v
theories/ArchiveProofs.v
theories/ArchiveProps.v
theories/DisplayModel.v
theories/DisplayProofs.v
theories/DisplayProps.v
theories/PubgrubNo.v
theories/PubgrubNoProps.v
theories/HelpModel.v
theories/HelpProofs.v
theories/HelpProps.v
theories/HomeModel.v
theories/HomeProofs.v
theories/HomeProps.v
theories/StoreModel.v
theories/StoreProofs.v
theories/StoreProps.v
theories/DelegateModel.v
theories/DelegateProofs.v
theories/DelegateProps.v
theories/PublishModel.v
theories/PublishProofs.v
theories/PublishProps.v
theories/MarkupModel.v
theories/MarkupProofs.v
theories/MarkupProps.v
theories/LauncherModel.v
theories/LauncherProofs.v
theories/LauncherProps.v
theories/TaskModel.v
theories/TaskProofs.v
theories/TaskProps.v
theories/AppModel.v
theories/AppProps.v
theories/VenvModel.v
theories/VenvProofs.v
theories/VenvProps.v
theories/ScaffoldModel.v
theories/ScaffoldProofs.v
theories/ScaffoldProps.v
theories/HookModel.v
theories/HookProps.v
theories/ReportModel.v
theories/ReportProps.v
theories/NewTaskModel.v
theories/NewTaskProofs.v
theories/NewTaskProps.v
theories/FromEnvModel.v
theories/FromEnvProps.v
theories/StatusModel.v
theories/StatusProps.v
theories/ZooModel.v
theories/ZooProps.v
theories/CatalogModel.v
theories/CatalogProofs.v
theories/CatalogProps.v
theories/BumpModel.v
theories/BumpProps.v
theories/SizeModel.v
theories/SizeProps.v
theories/TemplateCmdModel.v
theories/TemplateCmdProps.v
theories/RunCmdModel.v
theories/RunCmdProps.v
