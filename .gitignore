*.vo
*.vok
*.vos
*.glob
*.aux
.*.cache
.*.d
*.conf
rocq/Makefile
.lia.cache
__pycache__/
